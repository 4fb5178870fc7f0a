(** Specification of the texts classinfo prints, in terms of class files
    (ClassFile_Spec, Info_Spec) and instructions (Opcodes_Spec), independently of
    the model. *)
From Verif Require Import Base Pack_Spec ConstPool_Spec ClassFile_Spec Descr_Spec Info_Spec Opcodes_Spec.

(** ** Declarations *)

(** Bits of access flags and the words for them, in the order they are written.
    Synthetic, bridge and varargs have no word. *)
Definition keywords (table : list (Z * String.string)) (flags : Z) : list str :=
  map (fun e => lit (snd e)) (filter (fun e => Z.testbit flags (fst e)) table).
Definition common_table : list (Z * String.string) :=
  [(0, "public"); (1, "private"); (2, "protected"); (3, "static"); (4, "final")]%string.
Definition field_table : list (Z * String.string) :=
  common_table ++ [(14, "enum"); (7, "transient"); (6, "volatile")]%string.
Definition method_table : list (Z * String.string) :=
  common_table ++ [(11, "strict"); (8, "native"); (10, "abstract"); (5, "synchronized")]%string.
Definition class_table : list (Z * String.string) :=
  [(0, "public"); (4, "final"); (10, "abstract"); (14, "enum")]%string.
(** The bits that JVMS 4.1, 4.5 and 4.6 define *)
Definition field_bits : list Z := [0; 1; 2; 3; 4; 6; 7; 12; 14].
Definition method_bits : list Z := [0; 1; 2; 3; 4; 5; 6; 7; 8; 10; 11; 12].
Definition only_bits (bits : list Z) (flags : Z) : Prop :=
  forall b, 0 <= b -> Z.testbit flags b = true -> In b bits.

Definition sig_table (s : jsig) : list (Z * String.string) :=
  match s with SField _ => field_table | SMethod _ _ => method_table end.
Definition sig_bits (s : jsig) : list Z := match s with SField _ => field_bits | SMethod _ _ => method_bits end.
Definition commas (l : list str) : str := concat_with (lit ",") l.
(** The words of a declaration: "public static int count",
    "public <init>(int,java.lang.String) throws java.io.IOException" *)
Definition member_words (flags : Z) (n : str) (s : jsig) (throws : list str) : list str :=
  keywords (sig_table s) flags ++
  match s with
  | SField t => [type_name t; n]
  | SMethod a r => (if seqb n (lit "<init>") then [] else [ret_name r]) ++
                   [n ++ lit "(" ++ commas (map type_name a) ++ lit ")"]
  end ++
  match throws with [] => [] | _ => [lit "throws"; commas (map dotted throws)] end.
Definition member_decl (flags : Z) (n : str) (s : jsig) (throws : list str) : str :=
  concat_with (lit " ") (member_words flags n s throws).

Definition class_kind (flags : Z) : str :=
  if Z.testbit flags 9 then (if Z.testbit flags 13 then lit "@interface" else lit "interface") else lit "class".
(** "public final class a.B extends a.C implements a.D,a.E" *)
Definition class_decl (flags : Z) (this super : str) (ifs : list str) : str :=
  concat_with (lit " ")
    (keywords class_table flags ++ [class_kind flags; dotted this; lit "extends"; dotted super] ++
     match ifs with [] => [] | _ => [lit "implements"; commas (map dotted ifs)] end).

(** What the tool puts before the declaration: a space if there is no modifier *)
Definition class_lead (f : Z) : str :=
  if Z.testbit f 9 then [] else match keywords class_table f with [] => lit " " | _ => [] end.

(** Names without the characters that separate the parts of a declaration *)
Definition ident (n : str) : bool :=
  negb (seqb n []) && forallb (fun c => negb ((c =? 32) || (c =? 40) || (c =? 41) || (c =? 44))) n.
Fixpoint ident_type (t : jtype) : bool :=
  match t with TPrim _ => true | TObj n => ident n && negb (keyword_name n) | TArr t => ident_type t end.
Definition ident_sig (s : jsig) : bool :=
  match s with
  | SField t => ident_type t
  | SMethod a r => forallb ident_type a && match r with Some t => ident_type t && negb (seqb (type_name t) (lit "void")) | None => true end
  end.

(** Declarations that can be read back: names as above, exceptions with methods
    only, <init> returning nothing *)
Record decl_ok (n : str) (s : jsig) (ex : list str) : Prop := {
  do_name : ident n = true;
  do_sig : sig_ok s = true;
  do_ident : ident_sig s = true;
  do_throws : forallb (fun x => class_name x && ident x) ex = true;
  do_field : match s with SField _ => ex = [] /\ n <> lit "<init>" | SMethod _ r => n = lit "<init>" -> r = None end }.

(** ** Members of a class file *)
Section Class.
Variable c : jclassfile.
Let l := jc_pool c.

(** The classes of the Exceptions attribute *)
Definition throws (m : jmember) (names : list str) : Prop :=
  (last_named l (jm_attrs m) (lit "Exceptions") = None /\ names = []) \/
  (exists is, last_named l (jm_attrs m) (lit "Exceptions") = Some (enc_exceptions is) /\
     short_list is = true /\ forallb u2 is = true /\ map (jclass_at l) is = map Some names /\
     forallb class_name names = true).
(** The declaration of a member; <init> is a name of constructors only *)
Definition name_ok (n : str) (s : jsig) : Prop :=
  n <> [] /\ match s with SField _ => n <> lit "<init>" | SMethod _ _ => True end.
Inductive described : jmember -> str -> Prop :=
| described_intro m n s ex : declares c m n s -> name_ok n s -> only_bits (sig_bits s) (jm_flags m) -> throws m ex ->
    described m (member_decl (jm_flags m) n s ex).

(** The SourceFile attribute *)
Definition source_file (s : option str) : Prop :=
  match s with
  | None => last_named l (jc_attrs c) (lit "SourceFile") = None
  | Some n => exists i, u2 i = true /\ last_named l (jc_attrs c) (lit "SourceFile") = Some (e2 i) /\ jutf8_at l i = Some n
  end.
(** The Code attribute, absent or well-formed *)
Definition has_code (m : jmember) (k : option jcode) : Prop :=
  match k with
  | None => last_named l (jm_attrs m) (lit "Code") = None
  | Some k => last_named l (jm_attrs m) (lit "Code") = Some (enc_code k) /\ jcode_ok l k = true
  end.
(** The EnclosingMethod attribute (JVMS 4.7.7): a class, and a name and
    descriptor if the class is within a method *)
Inductive enclosing : option str -> Prop :=
| en_none : last_named l (jc_attrs c) (lit "EnclosingMethod") = None -> enclosing None
| en_class i n : u2 i = true -> last_named l (jc_attrs c) (lit "EnclosingMethod") = Some (e2 i ++ e2 0) ->
    jclass_at l i = Some n -> enclosing (Some n)
| en_method i j n m d : u2 i = true -> u2 j = true ->
    last_named l (jc_attrs c) (lit "EnclosingMethod") = Some (e2 i ++ e2 j) ->
    jclass_at l i = Some n -> jnt_at l j = Some (m, d) -> enclosing (Some (n ++ lit "." ++ m ++ d)).
End Class.

(** Which members are listed: 1 public, 3 public and protected, 7 all *)
Definition visible (show : Z) (m : jmember) : bool :=
  (show =? 7) || Z.testbit (jm_flags m) 0 || ((show =? 3) && Z.testbit (jm_flags m) 2).

(** The listing: source, declaration, constants if asked for, and for each member a line with its
    declaration, indented unless code is listed ([dis]) *)
Definition nl : str := [10].
Definition decl_line (dis : bool) (t : str) : str := (if dis then [] else lit "   ") ++ t ++ lit ";" ++ nl.
Definition listing (src : option str) (decl consts : str) (members : list str) : str :=
  match src with Some ((_ :: _) as s) => lit "Compiled from """ ++ s ++ lit """" ++ nl | _ => [] end ++
  decl ++ consts ++ lit "{" ++ nl ++ concat members ++ lit "}" ++ nl ++ nl.

(** ** Code *)

(** "   12:<tab>name<tab>operands" *)
Definition pair_text (x : Z * Z) : str := lit "(" ++ dec (fst x) ++ lit ", " ++ dec (snd x) ++ lit ")".
Definition operand_texts (j : jinsn) : list str :=
  match j with
  | JOp code ops => map dec (if code =? 16 then map (fun v => v mod 256) ops else ops)
  | JTable d low offs =>
      [dec d; dec low; dec (low + Z.of_nat (length offs) - 1);
       lit "[" ++ concat_with (lit ", ") (map (fun o => lit "(" ++ dec o ++ lit ",)") offs) ++ lit "]"]
  | JLookup d pairs => [dec d; lit "[" ++ concat_with (lit ", ") (map pair_text pairs) ++ lit "]"]
  | JWide code idx => [dec code; dec idx]
  | JWideIinc idx delta => [dec 132; dec idx; dec delta]
  end.
Definition jinsn_code (j : jinsn) : Z :=
  match j with JOp c _ => c | JTable _ _ _ => 170 | JLookup _ _ => 171 | JWide _ _ | JWideIinc _ _ => 196 end.
Definition mnemonic (j : jinsn) : str := match jvm_name (jinsn_code j) with Some n => n | None => [] end.
Definition jinsn_line (off : nat) (j : jinsn) : str :=
  lit "   " ++ dec (Z.of_nat off) ++ lit ":" ++ [9] ++ mnemonic j ++
  match operand_texts j with [] => [] | l => [9] ++ concat_with (lit ", ") l end ++ nl.
Fixpoint jcode_lines (off : nat) (l : list jinsn) : str :=
  match l with
  | [] => []
  | j :: l' => jinsn_line off j ++ jcode_lines (off + length (assemble1 off j)) l'
  end.

Definition no_monitorenter (l : list jinsn) : bool := forallb (fun j => negb (jinsn_code j =? 194)) l.

(** A number in a column: right-aligned in four places, at least one space *)
Definition column (z : Z) : str := repeat 32 (Nat.max 1 (4 - length (dec z))) ++ dec z.
Inductive caught (l : list jconst) : Z -> str -> Prop :=
| caught_any : caught l 0 (lit "any")
| caught_class i n : i <> 0 -> jclass_at l i = Some n -> class_name n = true -> caught l i (lit "Class " ++ dotted n).
Definition handler_text (h : Z * Z * Z * Z) (t : str) : str :=
  let '(s, e, t', _) := h in
  lit "  " ++ column s ++ [9] ++ column e ++ [9] ++ column t' ++ [9] ++ t ++ nl.
Definition handlers_text (hs : list (Z * Z * Z * Z)) (ts : list str) : str :=
  match hs with
  | [] => []
  | _ => lit "  Exception table:" ++ nl ++
         lit "   from" ++ [9] ++ lit "to" ++ [9] ++ lit "target" ++ [9] ++ lit "type" ++ nl ++
         concat (map (fun ht => handler_text (fst ht) (snd ht)) (combine hs ts))
  end.

(** The lines of a method: its declaration and, if [dis], its code.  The name of
    opcode 194 (monitorenter) is not covered. *)
Section Block.
Variable c : jclassfile.
Variable dis : bool.
Inductive code_block (m : jmember) : str -> Prop :=
| cb_none : has_code c m None -> code_block m []
| cb_off k : dis = false -> has_code c m (Some k) -> code_block m []
| cb_on k is ts : dis = true -> has_code c m (Some k) -> jk_code k = assemble 0 is -> forallb jinsn_ok is = true ->
    no_monitorenter is = true -> Forall2 (fun h => caught (jc_pool c) (snd h)) (jk_handlers k) ts ->
    code_block m (lit "  Code:" ++ nl ++ jcode_lines 0 is ++ handlers_text (jk_handlers k) ts).
Inductive block : jmember -> str -> Prop :=
| block_intro m t s : described c m t -> code_block m s -> block m (decl_line dis t ++ s).
End Block.
Definition no_annotations (c : jclassfile) (m : jmember) : Prop :=
  last_named (jc_pool c) (jm_attrs m) (lit "RuntimeVisibleAnnotations") = None.

(** ** Constants *)

(** Types and values as listed with -p.  Strings ([reprs]) and floats ([ffmt32],
    [ffmt64], from their bits) are shown by given functions. *)
Section Consts.
Variable reprs : str -> str.
Variable ffmt32 ffmt64 : Z -> str.
Definition sharp (i : Z) : str := lit "#" ++ dec i.
Definition both (a b : Z) : str := lit "(" ++ dec a ++ lit ", " ++ dec b ++ lit ")".
Definition const_text (k : jconst) : str * str :=
  match k with
  | JUtf8 s => (lit "Utf8", reprs s)
  | JInteger z => (lit "int", dec z)
  | JFloat b => (lit "float", ffmt32 b ++ lit "f")
  | JLong z => (lit "long", dec z ++ lit "l")
  | JDouble b => (lit "double", ffmt64 b ++ lit "d")
  | JClass i => (lit "class", sharp i)
  | JString i => (lit "String", sharp i)
  | JFieldref a b => (lit "Field", sharp a ++ lit "." ++ sharp b)
  | JMethodref a b => (lit "Method", sharp a ++ lit "." ++ sharp b)
  | JInterfaceMethodref a b => (lit "InterfaceMethod", sharp a ++ lit "." ++ sharp b)
  | JNameAndType a b => (lit "NameAndType", sharp a ++ lit ":" ++ sharp b)
  | JModuleId a b => (lit "ModuleId", sharp a ++ lit "@" ++ sharp b)
  | JMethodHandle k i => (lit "MethodHandle", both k i)
  | JMethodType i => (lit "MethodType", dec i)
  | JDynamic a b => (lit "Dynamic", both a b)
  | JInvokeDynamic a b => (lit "InvokeDynamic", both a b)
  | JModule i => (lit "Module", dec i)
  | JPackage i => (lit "Package", dec i)
  end.
(** The constants in order, each with its index; long and double take two *)
Definition const_width (k : jconst) : Z := match k with JLong _ | JDouble _ => 2 | _ => 1 end.
Fixpoint const_listing (i : Z) (l : list jconst) : str :=
  match l with
  | [] => []
  | k :: l' => lit "const #" ++ dec i ++ lit " = " ++ fst (const_text k) ++ [9] ++ snd (const_text k) ++ lit ";" ++ nl ++
               const_listing (i + const_width k) l'
  end.
Definition const_block (l : list jconst) : str := lit "  Constants pool:" ++ nl ++ const_listing 1 l ++ nl.
Definition no_dynamic (l : list jconst) : bool := forallb (fun k => match k with JDynamic _ _ => false | _ => true end) l.
End Consts.
