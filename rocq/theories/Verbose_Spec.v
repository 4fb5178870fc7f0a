(** Specification of the full listing of a class: signatures, annotations, constant
    values, line numbers, local variables, and the header; and of the lists of
    symbols.  In terms of class files, independently of the model. *)
From Verif Require Import Base ConstPool_Spec ClassFile_Spec Descr_Spec Info_Spec Opcodes_Spec Anno_Spec Print_Model Print_Spec Jinfo_Spec.

(** ** What is asked for: -v asks for everything *)
Record view := mkview { w_all : bool; w_sigs : bool; w_lines : bool; w_locals : bool; w_code : bool; w_pool : bool }.
Definition asked (o : popts) : view :=
  let v := o_verbose o in
  mkview v (v || o_sigs o) (v || o_lines o) (v || o_locals o) (v || o_disassemble o) (v || o_constpool o).
(** Declarations are indented where they stand alone *)
Definition flush (w : view) : bool := w_sigs w || w_lines w || w_code w.
(** [s] where [b], else nothing *)
Definition given (b : bool) (s : str) : str := if b then s else [].

(** ** Annotations *)
Section Anno.
Variable l : list jconst.
(** Values by their tag and the indices of their constants *)
Inductive val_text : jval -> str -> Prop :=
| vt_const tag i : val_text (VConst tag i) ([tag] ++ lit "#" ++ dec i)
| vt_enum t n : val_text (VEnum t n) (lit "e#" ++ dec t ++ lit ".#" ++ dec n)
| vt_class i : val_text (VClass i) (lit "c#" ++ dec i)
| vt_anno t es ty ss : jutf8_at l t = Some (desc ty) -> Forall2 elem_text es ss ->
    val_text (VAnno t es) (lit "@" ++ type_name ty ++ lit "(" ++ concat_with (lit ", ") ss ++ lit ")")
| vt_arr vs ss : Forall2 val_text vs ss -> val_text (VArr vs) (lit "[" ++ concat_with (lit ", ") ss ++ lit "]")
with elem_text : Z * jval -> str -> Prop :=
| et_intro i n v s : jutf8_at l i = Some n -> val_text v s -> elem_text (i, v) (n ++ lit "=" ++ s).
(** "pkg.Type(name=value, name=value)" *)
Inductive anno_text : Z * list (Z * jval) -> str -> Prop :=
| at_intro t es ty ss : jutf8_at l t = Some (desc ty) -> Forall2 elem_text es ss ->
    anno_text (t, es) (type_name ty ++ lit "(" ++ concat_with (lit ", ") ss ++ lit ")").
(** The runtime visible annotations among these attributes, each as a text *)
Definition annotated (al : list jattr) (ts : list str) : Prop :=
  (last_named l al (lit "RuntimeVisibleAnnotations") = None /\ ts = []) \/
  (exists annos, last_named l al (lit "RuntimeVisibleAnnotations") = Some (enc_annos annos) /\
     short_list annos = true /\ forallb (janno_ok l) annos = true /\ Forall2 anno_text annos ts).
(** The tool numbers all of them 0 *)
Definition annos_text (ts : list str) : str :=
  match ts with
  | [] => []
  | _ => lit "  RuntimeVisibleAnnotations:" ++ nl ++ concat (map (fun t => lit "  0: " ++ t ++ nl) ts)
  end.

(** An attribute that holds the index of a text *)
Definition names_text (al : list jattr) (name : String.string) (s : option str) : Prop :=
  match s with
  | None => last_named l al (lit name) = None
  | Some n => exists i, u2 i = true /\ last_named l al (lit name) = Some (e2 i) /\ jutf8_at l i = Some n
  end.
Definition sig_line (s : option str) : str :=
  lit "  Signature: " ++ match s with Some s => s | None => lit "None" end ++ nl.
(** An attribute that is there and not empty *)
Definition filled (al : list jattr) (name : String.string) : bool :=
  match last_named l al (lit name) with Some (_ :: _) => true | _ => false end.

(** ** Tables of code *)
Definition line_table (k : jcode) (t : list (Z * Z)) : Prop :=
  (last_named l (jk_attrs k) (lit "LineNumberTable") = None /\ t = []) \/
  (last_named l (jk_attrs k) (lit "LineNumberTable") = Some (enc_pairs t) /\ short_list t = true /\ forallb pair_ok t = true).
Definition line_table_text (t : list (Z * Z)) : str :=
  match t with
  | [] => []
  | _ => lit "  LineNumberTable:" ++ nl ++ concat (map (fun e => lit "   line " ++ dec (snd e) ++ lit ": " ++ dec (fst e) ++ nl) t)
  end.
(** A row: first offset, number of bytes, name, type, slot (JVMS 4.7.13) *)
Inductive var_text : list Z -> str -> Prop :=
| var_intro start len n d slot name type : jutf8_at l n = Some name -> jutf8_at l d = Some type ->
    var_text [start; len; n; d; slot]
      (lit "   " ++ dec start ++ [9] ++ dec len ++ [9] ++ dec slot ++ [9] ++ name ++ [9] ++ type ++ nl).
Definition var_rows (k : jcode) (name : String.string) (ts : list str) : Prop :=
  (last_named l (jk_attrs k) (lit name) = None /\ ts = []) \/
  (exists t, last_named l (jk_attrs k) (lit name) = Some (enc_rows t) /\ short_list t = true /\ forallb row_ok t = true /\
     Forall2 var_text t ts).
Definition vars_text (title last : String.string) (ts : list str) : str :=
  match ts with
  | [] => []
  | _ => lit title ++ nl ++ lit "   Start  Length  Slot" ++ [9] ++ lit "Name" ++ [9] ++ lit last ++ nl ++ concat ts
  end.
End Anno.

Section Class.
Variable reprs : str -> str.
Variable ffmt32 ffmt64 : Z -> str.
Variable c : jclassfile.
Variable w : view.
Let l := jc_pool c.

(** ** Fields *)
Inductive constant_text (m : jmember) : str -> Prop :=
| ct_none : last_named l (jm_attrs m) (lit "ConstantValue") = None -> constant_text m []
| ct_some i k : u2 i = true -> last_named l (jm_attrs m) (lit "ConstantValue") = Some (e2 i) ->
    jat l i = Some k -> no_dynamic [k] = true ->
    constant_text m (lit "  Constant value: " ++ fst (const_text reprs ffmt32 ffmt64 k) ++ lit " " ++
                     snd (const_text reprs ffmt32 ffmt64 k) ++ nl).
Inductive field_text (m : jmember) : str -> Prop :=
| ft_intro t sg ts cv : described c m t ->
    (w_sigs w = true -> names_text l (jm_attrs m) "Signature" sg) ->
    (w_all w = true -> annotated l (jm_attrs m) ts) ->
    (w_all w = true -> constant_text m cv) ->
    field_text m (decl_line (flush w) t ++ given (w_sigs w) (sig_line sg) ++ given (w_all w) (annos_text ts ++ cv ++ nl)).

(** ** Methods *)
(** The number of arguments, with [this] *)
Definition args_size (m : jmember) (args : list jtype) : Z :=
  Z.of_nat (length args) + (if Z.testbit (jm_flags m) 3 then 0 else 1).
Definition stack_line (k : jcode) (n : Z) : str :=
  lit "   Stack=" ++ dec (jk_stack k) ++ lit ", Locals=" ++ dec (jk_locals k) ++ lit ", Args_size=" ++ dec n ++ nl.
(** The instructions and the exception table *)
Inductive insns_text (m : jmember) (k : jcode) : str -> Prop :=
| it_intro n a r is ts : declares c m n (SMethod a r) -> jk_code k = assemble 0 is -> forallb jinsn_ok is = true ->
    no_monitorenter is = true -> Forall2 (fun h => caught l (snd h)) (jk_handlers k) ts ->
    insns_text m k (lit "  Code:" ++ nl ++ given (w_all w) (stack_line k (args_size m a)) ++ jcode_lines 0 is ++
                    handlers_text (jk_handlers k) ts).
(** What code adds before and after the flags *)
Inductive body_text (m : jmember) : str -> str -> Prop :=
| bt_none : has_code c m None -> body_text m [] []
| bt_some k ct lt vs gs : has_code c m (Some k) ->
    (w_code w = true -> insns_text m k ct) -> (w_lines w = true -> line_table l k lt) ->
    (w_locals w = true -> var_rows l k "LocalVariableTable" vs) -> (w_locals w = true -> var_rows l k "LocalVariableTypeTable" gs) ->
    body_text m (given (w_code w) ct)
      (given (w_lines w) (line_table_text lt) ++
       given (w_locals w) (vars_text "  LocalVariableTable:" "Descriptor" vs ++ vars_text "  LocalVariableTypeTable:" "Signature" gs)).
Definition marks_text (m : jmember) : str :=
  given (filled l (jm_attrs m) "Deprecated") (lit "  Deprecated: true" ++ nl) ++
  given (Z.testbit (jm_flags m) 12 || filled l (jm_attrs m) "Synthetic") (lit "  Synthetic: true" ++ nl) ++
  given (Z.testbit (jm_flags m) 6) (lit "  Bridge: true" ++ nl) ++
  given (Z.testbit (jm_flags m) 7) (lit "  Varargs: true" ++ nl).
Definition throws_text (ex : list str) : str :=
  lit "  Exceptions:" ++ nl ++ concat (map (fun n => lit "   throws " ++ dotted n ++ nl) ex) ++ nl.
Inductive method_text (m : jmember) : str -> Prop :=
| mt_intro t sg ts a b ex : described c m t ->
    (w_sigs w = true -> names_text l (jm_attrs m) "Signature" sg) ->
    annotated l (jm_attrs m) ts -> body_text m a b -> throws c m ex ->
    method_text m (decl_line (flush w) t ++ given (w_sigs w) (sig_line sg) ++ annos_text ts ++ a ++
                   given (w_all w) (marks_text m) ++ b ++ given (w_all w) (throws_text ex)).

(** ** The header.  The tool swaps the two parts of the version (C73). *)
Definition platform_text (major minor : Z) : str :=
  if major =? 45 then if minor <? 4 then lit "1.0.2" else lit "1.1"
  else if (46 <=? major) && (major <=? 52) then lit "1." ++ dec (major - 44) else lit "unknown".
Definition quoted (title : String.string) (s : option str) : str :=
  match s with Some ((_ :: _) as s) => lit title ++ lit """" ++ s ++ lit """" ++ nl | _ => [] end.
Definition titled (title : String.string) (s : option str) : str :=
  match s with Some ((_ :: _) as s) => lit title ++ s ++ nl | _ => [] end.
Definition header_block (src sg : option str) (ts : list str) (em : option str) : str :=
  nl ++ quoted "  SourceFile: " src ++ titled "  Signature: " sg ++ annos_text ts ++ titled "  EnclosingMethod: " em ++
  lit "  minor version: " ++ dec (jc_major c) ++ nl ++ lit "  major version: " ++ dec (jc_minor c) ++ nl ++
  lit "  Platform: " ++ platform_text (jc_major c) (jc_minor c) ++ nl.
End Class.

(** The whole: [members] none if only the header is asked for *)
Definition full_listing (src : option str) (decl header consts : str) (members : option (list str)) : str :=
  quoted "Compiled from " src ++ decl ++ header ++ consts ++
  match members with Some ms => lit "{" ++ nl ++ concat ms ++ lit "}" ++ nl ++ nl | None => [] end.

(** ** Symbols: "class pkg.Name provides:", then the symbols in order *)
Definition class_symbols (this : str) (word : String.string) (syms : list str) : str :=
  symbol_list (lit "class " ++ dotted this ++ lit " " ++ lit word ++ lit ":") syms.
