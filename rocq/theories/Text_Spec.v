(** Specification of the text report of classdiff: which lines it has, as a
    function of the two classes, without reference to change trees. *)
From Verif Require Import Base Pack_Model ConstPool_Model ClassFile_Model Descr_Model Descr_Spec Opcodes_Model Opcodes_Spec Anno_Model
  Change_Model Classdiff_Model Classdiff_Spec Classdiff_Merge Info_Model Info_Spec Print_Spec Html_Spec Html_Values Html_Class.

(** ** Lines *)
(** Two spaces for each level; [escape] leaves ASCII as it is (C40_escape) *)
Definition text_line (n : nat) (s : str) : str := concat (repeat (lit "  ") n) ++ escape s ++ [10].
Definition marked_line (n : nat) (s : str) : str := concat (repeat (lit "  ") n) ++ escape s ++ lit " [IGNORED]" ++ [10].
(** What becomes of something compared: it is the same, it differs but the options
    say to ignore that, or it differs *)
Inductive standing := Same | Aside | Told.
(** A line that may be written: the text where something differs, the text where it
    does not, sameness, and what the options say *)
Record says := mksays { s_text : str; s_still : str; s_same : Prop; s_hidden : Prop }.
Definition turns (label : String.string) (old new : str) : str := lit label ++ lit " changed: " ++ old ++ lit " to " ++ new.
Definition stays (label : String.string) : str := lit label ++ lit " unchanged".
Definition may_move (label : String.string) (old new : str) (same hidden : Prop) : says := mksays (turns label old new) (stays label) same hidden.
Definition moves (label : String.string) (old new : str) (same : Prop) : says := may_move label old new same False.
Section Lines.
Variable o : options.
(** Differences are written, those to be ignored only with --show-ignored and
    marked, and what is the same only with --show-unchanged; what is [below] is
    written only with the line above it *)
Definition written (n : nat) (st : standing) (text still below : str) : standing * str :=
  (st, match st with
       | Told => text_line n text ++ below
       | Aside => if show_ignored o then marked_line n text ++ below else []
       | Same => if show_unchanged o then text_line n still ++ below else []
       end).
Inductive entry (n : nat) (e : says) : standing * str -> Prop :=
| entry_told : ~ s_same e -> ~ s_hidden e -> entry n e (written n Told (s_text e) (s_still e) [])
| entry_aside : ~ s_same e -> s_hidden e -> entry n e (written n Aside (s_text e) (s_still e) [])
| entry_same : s_same e -> entry n e (written n Same (s_text e) (s_still e) []).
(** Several together: the same if all are, ignored if all that differ are *)
Definition worse (a b : standing) : standing :=
  match a, b with Told, _ => Told | _, Told => Told | Aside, _ => Aside | _, Aside => Aside | Same, Same => Same end.
Definition together (l : list standing) : standing := fold_right worse Same l.
(** A heading above what there is to say *)
Definition block_text (n : nat) (heading still : str) (ps : list (standing * str)) : standing * str :=
  written n (together (map fst ps)) heading still (concat (map snd ps)).
End Lines.

(** ** Choosing members *)
Inductive picks {A} (P : A -> Prop) : list A -> list A -> Prop :=
| picks_nil : picks P [] []
| picks_take x l k : P x -> picks P l k -> picks P (x :: l) (x :: k)
| picks_skip x l k : ~ P x -> picks P l k -> picks P (x :: l) k.
Section Pairs.
Context {A : Type}.
Variable same : A -> A -> Prop.
(** Those of the second list with their counterparts in the first *)
Inductive pairing (ls : list A) : list A -> list (A * A) -> Prop :=
| pairing_nil : pairing ls [] []
| pairing_take l r rs ps : In l ls -> same l r -> pairing ls rs ps -> pairing ls (r :: rs) ((l, r) :: ps)
| pairing_skip r rs ps : (forall l, In l ls -> ~ same l r) -> pairing ls rs ps -> pairing ls (r :: rs) ps.
End Pairs.

Section Text.
Variable fmt : pyval -> str.
Variable reprs : str -> str.

(** ** Values as Python shows them *)
Definition quote (s : str) : str :=
  if zmem 39 s && negb (zmem 34 s) then [34] ++ reprs s ++ [34] else [39] ++ reprs s ++ [39].
Definition tuple_shown (l : list str) : str :=
  match l with [x] => lit "(" ++ x ++ lit ",)" | _ => lit "(" ++ commas_sp l ++ lit ")" end.
Definition list_shown (l : list str) : str := lit "[" ++ commas_sp l ++ lit "]".
Definition or_nothing (s : option str) : str := match s with Some s => s | None => lit "None" end.
Definition two (x : Z * Z) : str := lit "(" ++ dec (fst x) ++ lit ", " ++ dec (snd x) ++ lit ")".
Definition constant_shown (v : option pyval) : str :=
  match v with Some (PStr s) => quote s | Some (PInt z) => dec z | Some v => fmt v | None => lit "None" end.
Definition class_words (f : Z) : list str :=
  keywords [(0, "public"); (4, "final"); (10, "abstract")]%string f ++
  (if Z.testbit f 9 then [class_kind f] else []) ++ keywords [(14, "enum")]%string f.

(** ** What is known of a class *)
Definition annos_shown (p : pool) (d : attrs) (attr : str) (ts : list str) : Prop :=
  exists l, annotations_of p d attr = Ok l /\ mapM (pretty_annotation fmt p) l = Ok ts.
Definition same_list (lp rp : pool) (la ra : attrs) (attr : str) : Prop :=
  agree (Forall2 (fun a b => annotation_eq lp rp a b = Ok true)) (annotations_of lp la attr) (annotations_of rp ra attr).
Definition annos_say (label : String.string) (lp rp : pool) (la ra : attrs) (attr : str) (old new : list str) : says :=
  moves label (list_shown (map quote old)) (list_shown (map quote new)) (same_list lp rp la ra attr).

Record field_data := mkfd { fd_name : str; fd_type : jtype; fd_sig : option str; fd_const : option pyval; fd_vis : list str; fd_invis : list str }.
Record field_is (p : pool) (m : member) (F : field_data) : Prop := {
  fi_known : known_field p m (fd_name F) (fd_type F) (fd_sig F) (fd_const F);
  fi_const : match fd_const F with Some (PPair _ _) => False | _ => True end;
  fi_name : fd_name F <> [] /\ fd_name F <> lit "<init>";
  fi_throws : get_exceptions p m = Ok [];
  fi_vis : annos_shown p (m_attrs m) A_vis (fd_vis F);
  fi_invis : annos_shown p (m_attrs m) A_invis (fd_invis F) }.
Definition field_decl (m : member) (F : field_data) : str := member_decl (m_flags m) (fd_name F) (SField (fd_type F)) [].

(** The type an exception handler catches *)
Inductive catch_shown (p : pool) (e : exinfo) : str -> Prop :=
| catch_any : ex_type_ref e = 0 -> catch_shown p e (lit "any")
| catch_class c n : ex_type_ref e <> 0 -> deref_const p (ex_type_ref e) = Ok (PStr (c :: n)) -> catch_shown p e (lit "Class " ++ dotted (c :: n)).
Record code_data := mkcd { cd_code : code; cd_lines : list (Z * Z); cd_catch : list str }.
Record code_is (p : pool) (K : code_data) : Prop := {
  ci_lines : get_linenumbertable (cd_code K) = Ok (cd_lines K);
  ci_catch : Forall2 (catch_shown p) (k_exceptions (cd_code K)) (cd_catch K) }.
Definition handler_shown (et : exinfo * str) : str :=
  tuple_shown [dec (ex_start (fst et)); dec (ex_end (fst et)); dec (ex_handler (fst et)); quote (snd et)].
Definition handlers_shown (K : code_data) : str := list_shown (map handler_shown (combine (k_exceptions (cd_code K)) (cd_catch K))).

Record method_data := mkmd { md_name : str; md_args : list jtype; md_ret : option jtype; md_sig : option str; md_ex : list str;
  md_vis : list str; md_invis : list str; md_code : option code_data }.
Record method_is (p : pool) (m : member) (M : method_data) : Prop := {
  mi_known : known_method p m (md_name M) (md_args M) (md_ret M) (md_sig M) (md_ex M);
  mi_throws : forallb class_name (md_ex M) = true;
  mi_vis : annos_shown p (m_attrs m) A_vis (md_vis M);
  mi_invis : annos_shown p (m_attrs m) A_invis (md_invis M);
  mi_code : get_code p m = Ok (option_map cd_code (md_code M));
  mi_data : match md_code M with Some K => code_is p K | None => True end }.
Definition method_decl (m : member) (M : method_data) : str := member_decl (m_flags m) (md_name M) (SMethod (md_args M) (md_ret M)) (md_ex M).

Record class_data := mkcdata { cl_this : str; cl_super : str; cl_ifs : list str; cl_sig : option str; cl_vis : list str; cl_invis : list str }.
Record class_is (c : classinfo) (D : class_data) : Prop := {
  cs_known : known_class c (cl_this D) (cl_super D) (cl_ifs D) (cl_sig D);
  cs_vis : annos_shown (c_pool c) (c_attrs c) A_vis (cl_vis D);
  cs_invis : annos_shown (c_pool c) (c_attrs c) A_invis (cl_invis D);
  cs_fields : Forall (fun m => exists F, field_is (c_pool c) m F) (c_fields c);
  cs_methods : Forall (fun m => exists M, method_is (c_pool c) m M) (c_methods c);
  cs_field_ids : distinct_ids fmt (c_pool c) (c_fields c);
  cs_method_ids : distinct_ids fmt (c_pool c) (c_methods c) }.

(** ** The report *)
Variable o : options.
(** The depth of the whole in the report: 0, or more in the report of a jar *)
Variable d : nat.
Definition older_hidden (v w : Z * Z) : Prop := ignore_version_up o = true /\ older v w \/ ignore_version_down o = true /\ older w v.
Definition header_says (l r : classinfo) (L R : class_data) : list says :=
  let v := c_version l in let w := c_version r in
  let pv := platform_from_version (fst v) (snd v) in let pw := platform_from_version (fst w) (snd w) in
  [moves "Class name" (dotted (cl_this L)) (dotted (cl_this R)) (cl_this L = cl_this R);
   may_move "Java class verison" (two v) (two w) (v = w) (older_hidden v w);
   may_move "Java platform" (or_nothing pv) (or_nothing pw) (pv = pw) (older_hidden v w);
   moves "Superclass" (dotted (cl_super L)) (dotted (cl_super R)) (cl_super L = cl_super R);
   moves "Interfaces" (tuple_shown (map quote (map dotted (cl_ifs L)))) (tuple_shown (map quote (map dotted (cl_ifs R))))
     (incl (cl_ifs L) (cl_ifs R) /\ incl (cl_ifs R) (cl_ifs L));
   moves "Access flags" (tuple_shown (map quote (class_words (c_flags l)))) (tuple_shown (map quote (class_words (c_flags r)))) (c_flags l = c_flags r);
   may_move "Deprecation" (truth (is_deprecated (c_attrs l))) (truth (is_deprecated (c_attrs r)))
     (is_deprecated (c_attrs l) = is_deprecated (c_attrs r)) (ignore_deprecated o = true);
   moves "Generics Signature" (or_nothing (cl_sig L)) (or_nothing (cl_sig R)) (cl_sig L = cl_sig R)].

Definition field_says (lp rp : pool) (a b : member) (F G : field_data) : list says :=
  let da := is_deprecated (m_attrs a) in let db := is_deprecated (m_attrs b) in
  [moves "Field name" (fd_name F) (fd_name G) (fd_name F = fd_name G);
   moves "Field type" (type_name (fd_type F)) (type_name (fd_type G)) (fd_type F = fd_type G);
   moves "Field Generic Signature" (or_nothing (fd_sig F)) (or_nothing (fd_sig G)) (fd_sig F = fd_sig G);
   annos_say "Field runtime annotations" lp rp (m_attrs a) (m_attrs b) A_vis (fd_vis F) (fd_vis G);
   annos_say "Field runtime invisible annotations" lp rp (m_attrs a) (m_attrs b) A_invis (fd_invis F) (fd_invis G);
   moves "Field accessflags" (commas (keywords field_table (m_flags a))) (commas (keywords field_table (m_flags b))) (m_flags a = m_flags b);
   moves "Field constvalue" (constant_shown (fd_const F)) (constant_shown (fd_const G)) (opt_rel pyeq (fd_const F) (fd_const G));
   may_move "Field deprecation" (truth da) (truth db) (da = db) (ignore_deprecated o = true)].

Definition same_ops (l r : list insn) : Prop :=
  forall i x y, nth_error l i = Some x -> nth_error r i = Some y -> i_off x = i_off y /\ i_code x = i_code y.
Inductive body_entry (n : nat) (l r : bytes) : standing * str -> Prop :=
| body_length : length l <> length r ->
    body_entry n l r (written o n Told (lit "Code length changed from " ++ dec (Z.of_nat (length l)) ++ lit " to " ++ dec (Z.of_nat (length r))) [] [])
| body_ops dl dr : length l = length r -> disassemble l = (dl, None) -> disassemble r = (dr, None) -> ~ same_ops dl dr ->
    body_entry n l r (written o n Told (lit "Code body changed") [] [])
| body_same dl dr : length l = length r -> disassemble l = (dl, None) -> disassemble r = (dr, None) -> same_ops dl dr ->
    body_entry n l r (written o n Same [] (stays "Code body") []).
Definition code_says (lp rp : pool) (K H : code_data) : list says :=
  let k := cd_code K in let h := cd_code H in
  let lines t := tuple_shown (map two t) in
  [may_move "Absolute line numbers" (lines (cd_lines K)) (lines (cd_lines H)) (cd_lines K = cd_lines H) (ignore_absolute_lines o = true);
   may_move "Relative line numbers" (lines (relative (cd_lines K))) (lines (relative (cd_lines H))) (relative (cd_lines K) = relative (cd_lines H)) (ignore_relative_lines o = true);
   moves "Stack size" (dec (k_max_stack k)) (dec (k_max_stack h)) (k_max_stack k = k_max_stack h);
   moves "Locals" (dec (k_max_locals k)) (dec (k_max_locals h)) (k_max_locals k = k_max_locals h);
   moves "Exception table" (handlers_shown K) (handlers_shown H) (Forall2 (same_handler lp rp) (k_exceptions k) (k_exceptions h));
   mksays (lit "Code constants changed") (stays "Code constants") (same_body tool_resolved lp rp (k_code k) (k_code h)) False].
(** The code of two methods.  Where only one has code that is a difference to be
    ignored, and its parts are said to be unchanged. *)
Definition code_parts_still : str :=
  concat (map (fun label => snd (written o (S (S (S (S d)))) Same [] (stays label) []))
    ["Absolute line numbers"; "Relative line numbers"; "Stack size"; "Locals"; "Exception table"; "Code constants"; "Code body"]%string).
Inductive code_block (lp rp : pool) : option code_data -> option code_data -> standing * str -> Prop :=
| code_both K H ts t : Forall2 (entry o (S (S (S (S d))))) (code_says lp rp K H) ts -> body_entry (S (S (S (S d)))) (k_code (cd_code K)) (k_code (cd_code H)) t ->
    code_block lp rp (Some K) (Some H) (block_text o (S (S (S d))) (lit "Method Code changed") (stays "Method Code") (ts ++ [t]))
| code_left K : code_block lp rp (Some K) None (written o (S (S (S d))) Aside (lit "Method Code changed") [] code_parts_still)
| code_right H : code_block lp rp None (Some H) (written o (S (S (S d))) Aside (lit "Method Code changed") [] code_parts_still)
| code_none : code_block lp rp None None (written o (S (S (S d))) Same [] (stays "Method Code") []).
Definition concrete {A} (c : option A) : str := match c with Some _ => lit "Method is concrete" | None => lit "Method is abstract" end.
Definition method_says (lp rp : pool) (a b : member) (M N : method_data) : list says :=
  let da := is_deprecated (m_attrs a) in let db := is_deprecated (m_attrs b) in
  [moves "Method name" (md_name M) (md_name N) (md_name M = md_name N);
   moves "Method type" (ret_name (md_ret M)) (ret_name (md_ret N)) (md_ret M = md_ret N);
   moves "Method generic signature" (or_nothing (md_sig M)) (or_nothing (md_sig N)) (md_sig M = md_sig N);
   annos_say "Method runtime annotations" lp rp (m_attrs a) (m_attrs b) A_vis (md_vis M) (md_vis N);
   annos_say "Method runtime invisible annotations" lp rp (m_attrs a) (m_attrs b) A_invis (md_invis M) (md_invis N);
   moves "Method parameters" (tuple_shown (map quote (map type_name (md_args M)))) (tuple_shown (map quote (map type_name (md_args N)))) (md_args M = md_args N);
   moves "Method accessflags" (tuple_shown (map quote (keywords method_table (m_flags a)))) (tuple_shown (map quote (keywords method_table (m_flags b)))) (m_flags a = m_flags b);
   moves "Method exceptions" (tuple_shown (map quote (map dotted (md_ex M)))) (tuple_shown (map quote (map dotted (md_ex N)))) (md_ex M = md_ex N);
   moves "Method abstract" (concrete (md_code M)) (concrete (md_code N)) (md_code M = None <-> md_code N = None);
   may_move "Method deprecation" (truth da) (truth db) (da = db) (ignore_deprecated o = true)].

(** The members of two classes: those only the second has, those only the first
    has, those of both in the order of the second *)
Definition members_block (what : String.string) (same : member -> member -> Prop) (added removed : member -> standing * str -> Prop) (changed : member -> member -> standing * str -> Prop)
  (ls rs : list member) (t : standing * str) : Prop :=
  exists adds rems pairs ta tr tc,
    picks (fun r => forall l, In l ls -> ~ same l r) rs adds /\
    picks (fun l => forall r, In r rs -> ~ same l r) ls rems /\
    pairing same ls rs pairs /\
    Forall2 added adds ta /\ Forall2 removed rems tr /\ Forall2 (fun ab => changed (fst ab) (snd ab)) pairs tc /\
    t = block_text o (S d) (lit what ++ lit " changed") (stays what) (ta ++ tr ++ tc).
Definition field_line (p : pool) (word : String.string) (m : member) (t : standing * str) : Prop :=
  exists F, field_is p m F /\ t = written o (S (S d)) Told (lit word ++ lit ": " ++ field_decl m F) [] [].
Definition method_line (p : pool) (word : String.string) (m : member) (t : standing * str) : Prop :=
  exists M, method_is p m M /\ t = written o (S (S d)) Told (lit word ++ lit ": " ++ method_decl m M) [] [].
Definition field_block (lp rp : pool) (a b : member) (t : standing * str) : Prop :=
  exists F G ts, field_is lp a F /\ field_is rp b G /\ Forall2 (entry o (S (S (S d)))) (field_says lp rp a b F G) ts /\
    t = block_text o (S (S d)) (lit "Field: " ++ field_decl a F) (lit "Field: " ++ field_decl a F) ts.
Definition method_block (lp rp : pool) (a b : member) (t : standing * str) : Prop :=
  exists M N ts tc, method_is lp a M /\ method_is rp b N /\ Forall2 (entry o (S (S (S d)))) (method_says lp rp a b M N) ts /\
    code_block lp rp (md_code M) (md_code N) tc /\
    t = block_text o (S (S d)) (lit "Method: " ++ method_decl a M) (lit "Method: " ++ method_decl a M) (ts ++ [tc]).
(** Fields correspond by name; methods by name and parameters, and the type
    returned where both are marked as bridges *)
Definition same_name (lp rp : pool) (a b : member) : Prop := exists n, m_name lp a = Ok (PStr n) /\ m_name rp b = Ok (PStr n).
Definition overrides (lp rp : pool) (a b : member) : Prop :=
  exists n args ret ret', is_method_of lp a n args ret /\ is_method_of rp b n args ret' /\
    Z.testbit (m_flags a) 6 = Z.testbit (m_flags b) 6 /\ (Z.testbit (m_flags a) 6 = true -> ret = ret').

Definition class_block (l r : classinfo) (t : standing * str) : Prop :=
  exists L R th ta ti tp tf tm, class_is l L /\ class_is r R /\
    Forall2 (entry o (S (S d))) (header_says l r L R) th /\
    entry o (S d) (annos_say "Class runtime annotations" (c_pool l) (c_pool r) (c_attrs l) (c_attrs r) A_vis (cl_vis L) (cl_vis R)) ta /\
    entry o (S d) (annos_say "Class runtime invisible annotations" (c_pool l) (c_pool r) (c_attrs l) (c_attrs r) A_invis (cl_invis L) (cl_invis R)) ti /\
    entry o (S d) (mksays (lit "Constant pool altered") (lit "Constant pool unaltered") (same_pool (c_pool l) (c_pool r)) (ignore_pool o = true)) tp /\
    members_block "Fields" (same_name (c_pool l) (c_pool r)) (field_line (c_pool r) "Field added") (field_line (c_pool l) "Field removed")
      (field_block (c_pool l) (c_pool r)) (c_fields l) (c_fields r) tf /\
    members_block "Methods" (overrides (c_pool l) (c_pool r)) (method_line (c_pool r) "Method added") (method_line (c_pool l) "Method removed")
      (method_block (c_pool l) (c_pool r)) (c_methods l) (c_methods r) tm /\
    t = block_text o d (lit "Java Class " ++ dotted (cl_this L)) (lit "Java Class " ++ dotted (cl_this L))
      [block_text o (S d) (lit "Class information changed") (stays "Class information") th; ta; ti; tp; tf; tm].
End Text.
(** The report of two classes alone *)
Definition report_of (fmt : pyval -> str) (reprs : str -> str) (o : options) (l r : classinfo) (t : str) : Prop :=
  exists st, class_block fmt reprs o 0 l r (st, t).
