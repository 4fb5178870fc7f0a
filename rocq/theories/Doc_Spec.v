(** Specification of the JSON document of classdiff: which objects it has, as a
    function of the two classes, without reference to change trees. *)
From Verif Require Import Base Pack_Model ConstPool_Model ConstPool_Spec ClassFile_Model Descr_Model Descr_Spec Opcodes_Model Opcodes_Spec Anno_Model
  Change_Model Classdiff_Model Classdiff_Spec Classdiff_Merge Info_Model Info_Spec Print_Spec Html_Spec Html_Values Html_Class Text_Spec.

(** ** Objects *)
(** What becomes of something compared, and the objects that describe it *)
Definition piece := (standing * (json -> Prop))%type.
Definition differs (st : standing) : bool := match st with Same => false | _ => true end.
Definition set_aside (st : standing) : bool := match st with Aside => true | _ => false end.
(** The class and the label of an object, and its data before and after *)
Record datum := mkdatum { q_class : String.string; q_label : String.string; q_data : option pyobj -> option pyobj -> Prop }.
Definition value (cls label : String.string) (x y : pyobj) : datum := mkdatum cls label (fun a b => a = Some x /\ b = Some y).
Definition maybe (cls label : String.string) (x y : option pyobj) : datum := mkdatum cls label (fun a b => a = x /\ b = y).
(** An object without children *)
Definition single (q : datum) (changed ignored : bool) (desc : str) (j : json) : Prop :=
  exists a b, q_data q a b /\ j = J (lit (q_class q)) changed desc (lit (q_label q)) ignored false false None None a b None.
(** An object about one of the two classes only *)
Definition alone (cls label : String.string) (added : bool) (desc : str) : piece :=
  (Told, fun j => j = J (lit cls) true desc (lit label) false added (negb added) None None None None None).
Section Objects.
Variable o : options.
(** As in the text report, differences are listed, those to be ignored only with
    --show-ignored, and what is the same only with --show-unchanged *)
Definition listed_too (st : standing) : bool := match st with Told => true | Aside => show_ignored o | Same => show_unchanged o end.
(** The option that hides a difference marks the object also where nothing differs *)
Inductive item (q : datum) (e : says) : piece -> Prop :=
| item_told : ~ s_same e -> ~ s_hidden e -> item q e (Told, single q true false (s_text e))
| item_aside : ~ s_same e -> s_hidden e -> item q e (Aside, single q true true (s_text e))
| item_same ign : s_same e -> (ign = true <-> s_hidden e) -> item q e (Same, single q false ign (s_still e)).
(** An object with children *)
Definition group_as (cls label : String.string) (heading still : str) (st : standing) (ps : list piece) : piece :=
  (st, fun j => exists js, Forall2 (fun p j => snd p j) (filter (fun p => listed_too (fst p)) ps) js /\
     j = J (lit cls) (differs st) (if differs st then heading else still) (lit label) (set_aside st) false false None None None None (Some js)).
Definition group (cls label : String.string) (heading still : str) (ps : list piece) : piece :=
  group_as cls label heading still (together (map fst ps)) ps.
Definition plain_group (cls label : String.string) (ps : list piece) : piece := group cls label (lit label ++ lit " changed") (stays label) ps.
Definition items (qs : list datum) (es : list says) (ps : list piece) : Prop :=
  length qs = length es /\ Forall2 (fun qe => item (fst qe) (snd qe)) (combine qs es) ps.

(** Those only the second has, those only the first has, those of both *)
Definition members_doc (cls what : String.string) (same : member -> member -> Prop) (added removed : member -> piece -> Prop) (changed : member -> member -> piece -> Prop)
  (ls rs : list member) (t : piece) : Prop :=
  exists adds rems pairs ta tr tc,
    picks (fun r => forall l, In l ls -> ~ same l r) rs adds /\
    picks (fun l => forall r, In r rs -> ~ same l r) ls rems /\
    pairing same ls rs pairs /\
    Forall2 added adds ta /\ Forall2 removed rems tr /\ Forall2 (fun ab => changed (fst ab) (snd ab)) pairs tc /\
    t = plain_group cls what (ta ++ tr ++ tc).
End Objects.

Section Docs.
Variable fmt : pyval -> str.
Variable reprs : str -> str.
Variable ffmt : pyval -> str.
Variable o : options.

(** ** Data *)
Definition texts (l : list str) : list pyobj := map OStr l.
Definition numbers (x : Z * Z) : pyobj := OTuple [OInt (fst x); OInt (snd x)].
Definition annos_data (cls label : String.string) (old new : list str) : datum := value cls label (OList (texts old)) (OList (texts new)).
Definition header_data (l r : classinfo) (L R : class_data) : list datum :=
  let platform c := option_map OStr (platform_from_version (fst (c_version c)) (snd (c_version c))) in
  [value "ClassNameChange" "Class name" (OStr (dotted (cl_this L))) (OStr (dotted (cl_this R)));
   value "ClassVersionChange" "Java class verison" (numbers (c_version l)) (numbers (c_version r));
   maybe "ClassPlatformChange" "Java platform" (platform l) (platform r);
   value "ClassSuperclassChange" "Superclass" (OStr (dotted (cl_super L))) (OStr (dotted (cl_super R)));
   value "ClassInterfacesChange" "Interfaces" (OTuple (texts (map dotted (cl_ifs L)))) (OTuple (texts (map dotted (cl_ifs R))));
   value "ClassAccessflagsChange" "Access flags" (OTuple (texts (class_words (c_flags l)))) (OTuple (texts (class_words (c_flags r))));
   value "ClassDeprecationChange" "Deprecation" (OBool (is_deprecated (c_attrs l))) (OBool (is_deprecated (c_attrs r)));
   maybe "ClassSignatureChange" "Generics Signature" (option_map OStr (cl_sig L)) (option_map OStr (cl_sig R))].
Definition fields_data (a b : member) (F G : field_data) : list datum :=
  [value "FieldNameChange" "Field name" (OStr (fd_name F)) (OStr (fd_name G));
   value "FieldTypeChange" "Field type" (OStr (type_name (fd_type F))) (OStr (type_name (fd_type G)));
   maybe "FieldSignatureChange" "Field Generic Signature" (option_map OStr (fd_sig F)) (option_map OStr (fd_sig G));
   annos_data "FieldAnnotationsChange" "Field runtime annotations" (fd_vis F) (fd_vis G);
   annos_data "FieldInvisibleAnnotationsChange" "Field runtime invisible annotations" (fd_invis F) (fd_invis G);
   value "FieldAccessflagsChange" "Field accessflags" (OTuple (texts (keywords field_table (m_flags a)))) (OTuple (texts (keywords field_table (m_flags b))));
   value "FieldConstvalueChange" "Field constvalue" (OStr (constant_shown fmt reprs (fd_const F))) (OStr (constant_shown fmt reprs (fd_const G)));
   value "FieldDeprecationChange" "Field deprecation" (OBool (is_deprecated (m_attrs a))) (OBool (is_deprecated (m_attrs b)))].
Definition methods_data (a b : member) (M N : method_data) : list datum :=
  let lacks {A} (c : option A) := OBool (match c with None => true | Some _ => false end) in
  [value "MethodNameChange" "Method name" (OStr (md_name M)) (OStr (md_name N));
   value "MethodTypeChange" "Method type" (OStr (ret_name (md_ret M))) (OStr (ret_name (md_ret N)));
   maybe "MethodSignatureChange" "Method generic signature" (option_map OStr (md_sig M)) (option_map OStr (md_sig N));
   annos_data "MethodAnnotationsChange" "Method runtime annotations" (md_vis M) (md_vis N);
   annos_data "MethodInvisibleAnnotationsChange" "Method runtime invisible annotations" (md_invis M) (md_invis N);
   value "MethodParametersChange" "Method parameters" (OTuple (texts (map type_name (md_args M)))) (OTuple (texts (map type_name (md_args N))));
   value "MethodAccessflagsChange" "Method accessflags" (OTuple (texts (keywords method_table (m_flags a)))) (OTuple (texts (keywords method_table (m_flags b))));
   value "MethodExceptionsChange" "Method exceptions" (OTuple (texts (map dotted (md_ex M)))) (OTuple (texts (map dotted (md_ex N))));
   value "MethodAbstractChange" "Method abstract" (lacks (md_code M)) (lacks (md_code N));
   value "MethodDeprecationChange" "Method deprecation" (OBool (is_deprecated (m_attrs a))) (OBool (is_deprecated (m_attrs b)))].

(** *** Code *)
(** The mnemonics are the JVM's, but for monitorenter (C63) *)
Definition mnemonic (c : Z) (n : str) : Prop := if c =? 194 then n = lit "monitorentry" else jvm_name c = Some n.
Definition operands (a : opargs) : pyobj :=
  match a with
  | AInts l => OTuple (map OInt l)
  | ALookup d l => OTuple [OInt d; OList (map numbers l)]
  | ATable d lo hi l => OTuple [OInt d; OInt lo; OInt hi; OList (map OInt l)]
  end.
(** Every instruction: its place, its mnemonic and its operands *)
Definition insn_shown (i : insn) (x : pyobj) : Prop := exists n, mnemonic (i_code i) n /\ x = OTuple [OInt (Z.of_nat (i_off i)); OStr n; operands (i_args i)].
Definition body_shown (b : bytes) (x : pyobj) : Prop := exists dl xs, disassemble b = (dl, None) /\ Forall2 insn_shown dl xs /\ x = OList xs.
Definition code_shown (K : option code_data) (x : pyobj) : Prop := match K with Some K => body_shown (k_code (cd_code K)) x | None => x = OList [] end.
(** The instructions of [l] with a constant that is not the one of the instruction of
    [r] in its place; the constant as text (C72) *)
Definition other_constant (lp rp : pool) (a b : insn) : Prop := tool_resolved (i_code a) = true /\ i_off a = i_off b /\ i_code a = i_code b /\ ~ same_insn tool_resolved lp rp a b.
Definition constant_row (p : pool) (i : insn) (x : pyobj) : Prop :=
  exists n k rest v, mnemonic (i_code i) n /\ i_args i = AInts (k :: rest) /\ pretty_deref_const fmt (fun v => repr_o reprs (obj fmt v)) p k = Ok v /\
    x = OTuple [OInt (Z.of_nat (i_off i)); OStr n; obj fmt v].
Definition constants_shown (p : pool) (chosen : insn -> Prop) (dl : list insn) (x : option pyobj) : Prop :=
  exists is xs, picks chosen dl is /\ Forall2 (constant_row p) is xs /\ x = Some (OList xs).
(** There are data where the same instructions are in the same places with other
    operands, and none where the instructions are others or all is the same *)
Inductive constants_data (lp rp : pool) (l r : bytes) : option pyobj -> option pyobj -> Prop :=
| constants_length : length l <> length r -> constants_data lp rp l r None None
| constants_ops dl dr : disassemble l = (dl, None) -> disassemble r = (dr, None) -> ~ same_ops dl dr -> constants_data lp rp l r None None
| constants_same : same_body tool_resolved lp rp l r -> constants_data lp rp l r None None
| constants_other dl dr a b : length l = length r -> disassemble l = (dl, None) -> disassemble r = (dr, None) -> same_ops dl dr -> ~ same_body tool_resolved lp rp l r ->
    constants_shown lp (fun x => exists y, In y dr /\ other_constant lp rp x y) dl a ->
    constants_shown rp (fun y => exists x, In x dl /\ other_constant lp rp x y) dr b -> constants_data lp rp l r a b.
Definition lines_data (K : option code_data) : list (Z * Z) := match K with Some K => cd_lines K | None => [] end.
Definition size_data (f : code -> Z) (K : option code_data) : Z := match K with Some K => f (cd_code K) | None => 0 end.
Definition handlers_data (K : option code_data) : str := match K with Some K => handlers_shown reprs K | None => lit "[]" end.
Definition code_data_of (lp rp : pool) (K H : option code_data) : list datum :=
  let lines t := OTuple (map numbers t) in
  [value "CodeAbsoluteLinesChange" "Absolute line numbers" (lines (lines_data K)) (lines (lines_data H));
   value "CodeRelativeLinesChange" "Relative line numbers" (lines (relative (lines_data K))) (lines (relative (lines_data H)));
   value "CodeStackChange" "Stack size" (OInt (size_data k_max_stack K)) (OInt (size_data k_max_stack H));
   value "CodeLocalsChange" "Locals" (OInt (size_data k_max_locals K)) (OInt (size_data k_max_locals H));
   value "CodeExceptionChange" "Exception table" (OStr (handlers_data K)) (OStr (handlers_data H));
   mkdatum "CodeConstantsChange" "Code constants" (fun a b => match K, H with
     | Some K, Some H => constants_data lp rp (k_code (cd_code K)) (k_code (cd_code H)) a b
     | _, _ => a = None /\ b = None end)].
Definition body_data (K H : option code_data) : datum :=
  mkdatum "CodeBodyChange" "Code body" (fun a b => exists x y, code_shown K x /\ code_shown H y /\ a = Some x /\ b = Some y).
Inductive body_item (K H : code_data) : piece -> Prop :=
| bitem_length : length (k_code (cd_code K)) <> length (k_code (cd_code H)) ->
    body_item K H (Told, single (body_data (Some K) (Some H)) true false
      (lit "Code length changed from " ++ dec (Z.of_nat (length (k_code (cd_code K)))) ++ lit " to " ++ dec (Z.of_nat (length (k_code (cd_code H))))))
| bitem_ops dl dr : length (k_code (cd_code K)) = length (k_code (cd_code H)) -> disassemble (k_code (cd_code K)) = (dl, None) -> disassemble (k_code (cd_code H)) = (dr, None) -> ~ same_ops dl dr ->
    body_item K H (Told, single (body_data (Some K) (Some H)) true false (lit "Code body changed"))
| bitem_same dl dr : length (k_code (cd_code K)) = length (k_code (cd_code H)) -> disassemble (k_code (cd_code K)) = (dl, None) -> disassemble (k_code (cd_code H)) = (dr, None) -> same_ops dl dr ->
    body_item K H (Same, single (body_data (Some K) (Some H)) false false (stays "Code body")).
(** Where only one method has code, the parts are said to be unchanged (C120), with
    the data of the one *)
Definition still_item (q : datum) (ign : bool) : piece := (Same, single q false ign (stays (q_label q))).
Definition still_items (lp rp : pool) (K H : option code_data) : list piece :=
  map (fun qi => still_item (fst qi) (snd qi))
    (combine (code_data_of lp rp K H ++ [body_data K H]) [ignore_absolute_lines o; ignore_relative_lines o; false; false; false; false; false]).
Definition code_group : standing -> list piece -> piece := group_as o "MethodCodeChange" "Method Code" (lit "Method Code changed") (stays "Method Code").
Inductive code_doc (lp rp : pool) : option code_data -> option code_data -> piece -> Prop :=
| cdoc_both K H ts t : items (code_data_of lp rp (Some K) (Some H)) (code_says reprs o lp rp K H) ts -> body_item K H t ->
    code_doc lp rp (Some K) (Some H) (code_group (together (map fst (ts ++ [t]))) (ts ++ [t]))
| cdoc_left K : code_doc lp rp (Some K) None (code_group Aside (still_items lp rp (Some K) None))
| cdoc_right H : code_doc lp rp None (Some H) (code_group Aside (still_items lp rp None (Some H)))
| cdoc_none : code_doc lp rp None None (code_group Same []).

(** ** Members *)
Definition field_alone (p : pool) (cls label : String.string) (added : bool) (m : member) (t : piece) : Prop :=
  exists F, field_is fmt p m F /\ t = alone cls label added (lit label ++ lit ": " ++ field_decl m F).
Definition method_alone (p : pool) (cls label : String.string) (added : bool) (m : member) (t : piece) : Prop :=
  exists M, method_is fmt p m M /\ t = alone cls label added (lit label ++ lit ": " ++ method_decl m M).
Definition field_doc (lp rp : pool) (a b : member) (t : piece) : Prop :=
  exists F G ts, field_is fmt lp a F /\ field_is fmt rp b G /\ items (fields_data a b F G) (field_says fmt reprs o lp rp a b F G) ts /\
    t = group o "FieldChange" "Field" (lit "Field: " ++ field_decl a F) (lit "Field: " ++ field_decl a F) ts.
Definition method_doc (lp rp : pool) (a b : member) (t : piece) : Prop :=
  exists M N ts tc, method_is fmt lp a M /\ method_is fmt rp b N /\ items (methods_data a b M N) (method_says reprs o lp rp a b M N) ts /\
    code_doc lp rp (md_code M) (md_code N) tc /\
    t = group o "MethodChange" "Method" (lit "Method: " ++ method_decl a M) (lit "Method: " ++ method_decl a M) (ts ++ [tc]).

(** ** The constant pool *)
(** Every constant with its index, type and value; those that are integers by
    themselves as integers *)
Definition constant_value (k : jconst) : pyobj :=
  match k with
  | JInteger z | JModule z | JPackage z => OInt z
  | _ => OStr (snd (const_text reprs (fun b => ffmt (PF32 b)) (fun b => ffmt (PF64 b)) k))
  end.
Fixpoint pool_rows (i : Z) (l : list jconst) : list pyobj :=
  match l with
  | [] => []
  | k :: l' => OTuple [OInt i; OStr (fst (const_text reprs (fun b => ffmt (PF32 b)) (fun b => ffmt (PF64 b)) k)); constant_value k] :: pool_rows (i + const_width k) l'
  end.
Definition pool_value (p : pool) (x : option pyobj) : Prop := exists t, x = Some (OTuple t) /\ forall l, pool_shows l p -> t = pool_rows 1 l.
Definition pool_data (l r : classinfo) : datum := mkdatum "ClassConstantPoolChange" "Constant pool" (fun a b => pool_value (c_pool l) a /\ pool_value (c_pool r) b).

(** ** The document *)
Definition class_piece (l r : classinfo) (t : piece) : Prop :=
  exists L R th ta ti tp tf tm, class_is fmt l L /\ class_is fmt r R /\
    items (header_data l r L R) (header_says reprs o l r L R) th /\
    item (annos_data "ClassAnnotationsChange" "Class runtime annotations" (cl_vis L) (cl_vis R))
      (annos_say reprs "Class runtime annotations" (c_pool l) (c_pool r) (c_attrs l) (c_attrs r) A_vis (cl_vis L) (cl_vis R)) ta /\
    item (annos_data "ClassInvisibleAnnotationsChange" "Class runtime invisible annotations" (cl_invis L) (cl_invis R))
      (annos_say reprs "Class runtime invisible annotations" (c_pool l) (c_pool r) (c_attrs l) (c_attrs r) A_invis (cl_invis L) (cl_invis R)) ti /\
    item (pool_data l r) (mksays (lit "Constant pool altered") (lit "Constant pool unaltered") (same_pool (c_pool l) (c_pool r)) (ignore_pool o = true)) tp /\
    members_doc o "ClassFieldsChange" "Fields" (same_name (c_pool l) (c_pool r)) (field_alone (c_pool r) "FieldAdded" "Field added" true)
      (field_alone (c_pool l) "FieldRemoved" "Field removed" false) (field_doc (c_pool l) (c_pool r)) (c_fields l) (c_fields r) tf /\
    members_doc o "ClassMethodsChange" "Methods" (overrides (c_pool l) (c_pool r)) (method_alone (c_pool r) "MethodAdded" "Method added" true)
      (method_alone (c_pool l) "MethodRemoved" "Method removed" false) (method_doc (c_pool l) (c_pool r)) (c_methods l) (c_methods r) tm /\
    t = group o "JavaClassChange" "Java Class" (lit "Java Class " ++ dotted (cl_this L)) (lit "Java Class " ++ dotted (cl_this L))
      [plain_group o "ClassInfoChange" "Class information" th; ta; ti; tp; tf; tm].
Definition class_doc (l r : classinfo) (j : json) : Prop := exists t, class_piece l r t /\ snd t j.
End Docs.
