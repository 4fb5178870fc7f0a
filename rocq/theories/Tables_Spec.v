(** Specification of tables that are spread over several attributes: the class file
    format allows more than one LineNumberTable, LocalVariableTable and
    LocalVariableTypeTable for the same code (JVMS 4.7.12 - 4.7.14). *)
From Verif Require Import Base Pack_Model ConstPool_Spec ClassFile_Model ClassFile_Spec.

(** The contents of all attributes of that name, in order *)
Inductive all_named (l : list jconst) (n : str) : list jattr -> list bytes -> Prop :=
| an_nil : all_named l n [] []
| an_this a al ds : jutf8_at l (ja_name a) = Some n -> all_named l n al ds -> all_named l n (a :: al) (ja_data a :: ds)
| an_other a al ds : jutf8_at l (ja_name a) <> Some n -> all_named l n al ds -> all_named l n (a :: al) ds.
