(** Model of the HTML page classdiff writes (--report html): the Cheetah templates
    /repo/javatools/cheetah/*.tmpl for a JavaClassReport and all changes under it,
    as run by CheetahReportFormat.run_impl (report.py:475-528).

    A page is a sequence of tags and pieces of text.  Simplifications: white space
    between tags is left out and line breaks inside a text are one space; the
    filter of Cheetah writes None as an empty text, any other value with str. *)
From Verif Require Import Base Pack_Model ConstPool_Model ClassFile_Model Descr_Model Opcodes_Model Anno_Model
  Change_Model Classdiff_Model Info_Model Print_Model Report_Model.

(** [Cut]: the end tag at classdiff_MethodAdded.tmpl:15, which lacks its ">" *)
Inductive html :=
| Prolog                                          (* report.tmpl:1-4 *)
| Open (tag : str) (attrs : list (str * str))
| Single (tag : str) (attrs : list (str * str))   (* report.tmpl:28 <link ... /> *)
| Close (tag : str)
| Cut (tag : str)
| Chars (s : str)
| Comment.                                        (* classdiff_MethodCodeChange.tmpl:114 *)

(** ** Pieces used throughout the templates (any line of them) *)
Definition attrs_of (l : list (String.string * String.string)) : list (str * str) := map (fun p => (lit (fst p), lit (snd p))) l.
Definition el (tag : String.string) (attrs : list (str * str)) (body : list html) : list html :=
  Open (lit tag) attrs :: body ++ [Close (lit tag)].
Definition txt (s : str) : list html := [Chars s].
Definition class_is (s : String.string) : list (str * str) := attrs_of [("class", s)]%string.

(** The rows of the left-headers tables: a changed value, e.g.
    classdiff_MethodChange.tmpl:63-69, with [mark] for the class is_changed *)
Definition row_changed (label : String.string) (mark : bool) (old new : str) : list html :=
  el "tr" [] (el "th" (attrs_of [("rowspan", "2")]%string) (txt (lit label)) ++ el "td" [] (txt old)) ++
  el "tr" [] (el "td" (if mark then class_is "is_changed" else []) (txt new)).
(** an unchanged value, e.g. classdiff_ClassInfoChange.tmpl:48-51 *)
Definition row_same (label : String.string) (old : str) : list html :=
  el "tr" [] (el "th" [] (txt (lit label)) ++ el "td" [] (txt old)).
(** the same without </td>: classdiff_MethodChange.tmpl:71-74, 91-94 and
    classdiff_FieldChange.tmpl:66-69, 86-89 *)
Definition row_same_open (label : String.string) (old : str) : list html :=
  el "tr" [] (el "th" [] (txt (lit label)) ++ Open (lit "td") [] :: txt old).

(** xml_entity_escape of a value that is no str: AttributeError, cheetah/__init__.py:61 *)
Definition esc_v (v : pyval) : res str := match v with PStr s => Ok (xml_entity_escape s) | _ => Err AttributeError end.
(** escape(v or "(None)"), e.g. classdiff_ClassInfoChange.tmpl:168 *)
Definition esc_or_none (v : option pyval) : res str :=
  match v with Some v' => if py_true v then esc_v v' else Ok (lit "(None)") | None => Ok (lit "(None)") end.
(** "0x%04x" % flags, e.g. classdiff_ClassInfoChange.tmpl:62 *)
Definition hex4 (z : Z) : str := lit "0x" ++ hexpad 4 z.
(** "0x%04x" % flags: words, e.g. classdiff_ClassInfoChange.tmpl:62-63 *)
Definition flags_text (z : Z) (words : list str) : str := hex4 z ++ lit ": " ++ concat_with (lit " ") words.
(** str(b) *)
Definition str_bool (b : bool) : str := if b then lit "True" else lit "False".
(** "(%s)" % ", ".join(l), e.g. classdiff_MethodChange.tmpl:105 *)
Definition in_parens (l : list str) : str := lit "(" ++ concat_with (lit ", ") l ++ lit ")".

(** collect_by_typename(change.collect())[name][0], classdiff_MethodChange.tmpl:23-37 *)
Definition part (kids : list change) (name : String.string) : res change :=
  match find (fun c => seqb (k_name (k_of c)) (lit name)) kids with Some c => Ok c | None => Err KeyError end.
(** is_change() of it *)
Definition part_changed (kids : list change) (name : String.string) : res bool := c <- part kids name ;; Ok (is_change c).

(** The outer element of change_Change.tmpl:4-22, 45: name of the class and state *)
Definition state_words (o : options) (c : change) : res str :=
  if is_change c then
    ig <- is_ignored o c ;;
    Ok (lit "Change " ++ k_name (k_of c) ++ lit " is_changed" ++ (if ig then lit " is_ignored" else []))
  else Ok (lit "Change " ++ k_name (k_of c) ++ lit " is_unchanged").
Definition change_div (o : options) (c : change) (body : list html) : res (list html) :=
  w <- state_words o c ;; Ok (el "div" [(lit "class", w)] body).
(** The description block of change_Change.tmpl:24-28 *)
Definition label_div (c : change) : list html := el "div" (class_is "description") (txt (xml_entity_escape (k_label (k_of c)))).
(** The description block of subreport.tmpl:4-10 *)
Definition subreport_head (c : change) : res (list html) :=
  d <- get_description c ;;
  Ok (el "h2" [(lit "id", k_name (k_of c))] (txt (k_label (k_of c))) ++
  el "div" (class_is "description") (txt (xml_entity_escape d))).
(** The frame of the details blocks, e.g. classdiff_ClassInfoChange.tmpl:12-13, 26-27 *)
Definition details_div (body : list html) : list html :=
  el "div" (class_is "details") (el "div" (class_is "lrdata") body).

(** ** The table of code *)

(** The text of the arguments, classdiff_MethodCodeChange.tmpl:67-68: the index of
    a constant with "#", or all arguments *)
Definition args_text (i : insn) : res str :=
  k <- has_const_arg (i_code i) ;;
  if k then match i_args i with AInts (x :: _) => Ok (lit "#" ++ dec x) | _ => Err IndexError end
  else Ok (concat_with (lit ", ") (arg_strs (i_args i))).
(** A cell: colspan, rowspan, text *)
Record cell := mkcell { cl_cols : nat; cl_rows : nat; cl_text : str }.
(** The three cells of an instruction, classdiff_MethodCodeChange.tmpl:64-68 *)
Definition insn_cells (i : insn) : res (list cell) :=
  n <- get_opname_by_code (i_code i) ;; a <- args_text i ;;
  Ok [mkcell 1 1 (dec (Z.of_nat (i_off i))); mkcell 1 1 n; mkcell 1 1 a].
(** One side of a row, classdiff_MethodCodeChange.tmpl:60-78 (left) and 80-98
    (right): the cells and the new value of the flag [last] *)
Definition side_cells (rowspan lastrow : nat) (first last : bool) (line : Z) (i : option insn) : res (list cell * bool) :=
  match i with
  | Some i =>
      cs <- insn_cells i ;;
      Ok ((if first then [mkcell 1 rowspan (dec line)] else []) ++ cs, last)
  | None =>
      if last then Ok ([], last)
      else Ok ([mkcell (if first then 4 else 3) lastrow []], true)
  end.
(** zip_longest, classdiff_MethodCodeChange.tmpl:53 *)
Fixpoint zip_longest {A} (l r : list A) : list (option A * option A) :=
  match l, r with
  | [], [] => []
  | x :: l', [] => (Some x, None) :: zip_longest l' []
  | [], y :: r' => (None, Some y) :: (fix right r := match r with [] => [] | y :: r' => (None, Some y) :: right r' end) r'
  | x :: l', y :: r' => (Some x, Some y) :: zip_longest l' r'
  end.
(** The rows of one relative line, classdiff_MethodCodeChange.tmpl:53-101 *)
Fixpoint line_rows (rel : Z) (rowspan lastrow : nat) (first last : bool) (lline rline : Z)
  (ps : list (option insn * option insn)) : res (list (list cell)) :=
  match ps with
  | [] => Ok []
  | (l, r) :: ps' =>
      lc <- side_cells rowspan lastrow first last lline l ;;
      rc <- side_cells rowspan lastrow first (snd lc) rline r ;;
      rest <- line_rows rel rowspan lastrow false (snd rc) lline rline ps' ;;
      Ok (((if first then [mkcell 1 rowspan (dec rel)] else []) ++ fst lc ++ fst rc) :: rest)
  end.
(** classdiff_MethodCodeChange.tmpl:36-52: line and instructions of each side.  The
    line is used only where there are instructions. *)
Definition group_dis (g : option group) : list insn := match g with Some (_, d) => d | None => [] end.
Definition group_line (g : option group) : Z := match g with Some (l, _) => l | None => 0 end.
Definition group_rows (e : Z * (option group * option group)) : res (list (list cell)) :=
  let '(rel, (l, r)) := e in
  let a := length (group_dis l) in let b := length (group_dis r) in
  line_rows rel (Nat.max a b) (Nat.max a b - Nat.min a b) true false (group_line l) (group_line r)
    (zip_longest (group_dis l) (group_dis r)).
(** sorted(merged.items()), classdiff_MethodCodeChange.tmpl:35: by relative line,
    the keys of a dict being distinct *)
Fixpoint insert_line {V} (x : Z * V) (l : list (Z * V)) : list (Z * V) :=
  match l with [] => [x] | y :: l' => if fst x <=? fst y then x :: l else y :: insert_line x l' end.
Definition sort_lines {V} (l : list (Z * V)) : list (Z * V) := fold_right insert_line [] l.
(** The body of the table of details_changed, classdiff_MethodCodeChange.tmpl:29-102 *)
Definition code_rows (lc rc : option code) : res (list (list cell)) :=
  d <- merge_code lc rc ;; rs <- mapM group_rows (sort_lines d) ;; Ok (concat rs).
(** The body of the table of details_unchanged, classdiff_MethodCodeChange.tmpl:130-150 *)
Fixpoint single_rows (rel abs : Z) (rowspan : nat) (first : bool) (is : list insn) : res (list (list cell)) :=
  match is with
  | [] => Ok []
  | i :: is' =>
      cs <- insn_cells i ;; rest <- single_rows rel abs rowspan false is' ;;
      Ok (((if first then [mkcell 1 rowspan (dec rel); mkcell 1 rowspan (dec abs)] else []) ++ cs) :: rest)
  end.
Definition single_code_rows (k : code) : res (list (list cell)) :=
  t <- get_linenumbertable k ;; ls <- iter_code_by_lines t (k_code k) ;;
  rs <- mapM (fun g => let '(abs, rel, dis) := g in single_rows rel abs (length dis) true dis) ls ;;
  Ok (concat rs).
(** A cell as a tag, classdiff_MethodCodeChange.tmpl:56-98.  Simplification: an
    attribute colspan or rowspan of 1 is left out, which means the same. *)
Definition span (name : String.string) (n : nat) : list (str * str) :=
  match n with 1%nat => [] | _ => [(lit name, dec (Z.of_nat n))] end.
Definition cell_html (c : cell) : list html := el "td" (span "colspan" (cl_cols c) ++ span "rowspan" (cl_rows c)) (txt (cl_text c)).
Definition rows_html (rs : list (list cell)) : list html := flat_map (fun r => el "tr" [] (flat_map cell_html r)) rs.
Definition th_row (l : list html) : list html := el "tr" [] l.
Definition th (s : String.string) : list html := el "th" [] (txt (lit s)).
Definition th4 (s : String.string) : list html := el "th" (attrs_of [("colspan", "4")]%string) (txt (lit s)).
(** The headings, classdiff_MethodCodeChange.tmpl:10-27, 117-129 *)
Definition dual_head : list html :=
  el "thead" [] (th_row (th "Relative" ++ th4 "Original" ++ th4 "Modified") ++
                 th_row (flat_map th ["line"; "line"; "offset"; "opcode"; "args"; "line"; "offset"; "opcode"; "args"]%string)).
Definition single_head : list html :=
  el "thead" [] (th_row (th "Relative" ++ th4 "Method Code") ++
                 th_row (flat_map th ["line"; "line"; "offset"; "opcode"; "args"]%string)).
(** classdiff_MethodCodeChange.tmpl:157-172: the details; the collect block (176-177)
    is empty, so that the sub-changes are not shown *)
Definition code_bytes (k : option code) : bytes := match k with Some k => k_code k | None => [] end.
Definition method_code_html (o : options) (c : change) (lc rc : option code) : res (list html) :=
  body <- (if is_change c || negb (seqb (code_bytes lc) (code_bytes rc))
           then rs <- code_rows lc rc ;; Ok (el "table" [] (dual_head ++ rows_html rs))
           else match lc with
                | None => Ok [Comment]
                | Some k => rs <- single_code_rows k ;; Ok (el "table" [] (single_head ++ rows_html rs))
                end) ;;
  change_div o c (label_div c ++ details_div body).

Section Html.
Variable fmt : pyval -> str.
Variable repr : pyval -> str.
Variable reprs : str -> str.
Variable ffmt : pyval -> str.

(** ** Annotations: classdiff_AnnotationsChange.tmpl *)
Definition const_index (i : nat) : list html := el "td" (class_is "const-index") (txt (dec (Z.of_nat i))).
(** render_annotations, 24-39 *)
Definition annos_single (p : pool) (annos : list annotation) : res (list html) :=
  ts <- mapM (pretty_annotation fmt p) annos ;;
  Ok (el "table" (class_is "annotations")
        (el "thead" [] (th_row (th "Index" ++ th "Annotation")) ++
         flat_map (fun it => el "tr" [] (const_index (fst it) ++ el "td" (class_is "const-value") (txt (snd it))))
           (combine (seq 0 (length ts)) ts))).
(** render_dual_annotations, 42-72.  [a and ...]: a JavaAnnotation is a dict, so one
    without elements is false *)
Definition anno_or_blank (p : pool) (a : option annotation) : res str :=
  match a with Some ((_, _ :: _) as a) => pretty_annotation fmt p a | _ => Ok [] end.
Definition dual_anno_row (lp rp : pool) (ip : nat * (option annotation * option annotation)) : res (list html) :=
  let '(i, (la, ra)) := ip in
  lt <- anno_or_blank lp la ;;
  e <- match la, ra with Some x, Some y => annotation_eq lp rp x y | None, None => Ok true | _, _ => Ok false end ;;
  rt <- anno_or_blank rp ra ;;
  Ok (el "tr" [] (const_index i ++ el "td" (class_is "const-value") (txt lt) ++
        el "td" (class_is (if e then "const-value is_unchanged" else "const-value is_changed")%string) (txt rt))).
Definition annos_dual (lp rp : pool) (la ra : list annotation) : res (list html) :=
  let ps := zip_longest la ra in
  rs <- mapM (dual_anno_row lp rp) (combine (seq 0 (length ps)) ps) ;;
  Ok (el "table" (class_is "annotations")
        (el "thead" [] (th_row (el "th" (attrs_of [("rowspan", "2")]%string) (txt (lit "Index")) ++
                               el "th" (attrs_of [("colspan", "2")]%string) (txt (lit "Annotation"))) ++
                        th_row (th "Original" ++ th "Changed")) ++
         concat rs)).
(** The details and description blocks, 6-21 *)
Definition annos_html (o : options) (c : change) (attr : str) (lp rp : pool) (la ra : attrs) : res (list html) :=
  l <- annotations_of lp la attr ;; r <- annotations_of rp ra attr ;;
  body <- (if is_change c then annos_dual lp rp l r else annos_single lp l) ;;
  change_div o c (el "div" (class_is "description") (txt (k_label (k_of c))) ++ details_div body).

(** ** Class information: classdiff_ClassInfoChange.tmpl *)
(** pretty_ldata() of an optional text, written by the filter *)
Definition opt_text (s : option str) : str := match s with Some s => s | None => [] end.
(** a row shown if changed, else if the left value is true, 101-118, 184-200 *)
Definition row_if_true (label : String.string) (changed : bool) (shown : bool) (old new : str) : list html :=
  if changed then row_changed label true old new else if shown then row_same label old else [].
Definition row_always (label : String.string) (changed mark : bool) (old new : str) : list html :=
  if changed then row_changed label mark old new else row_same label old.
(** ", ".join(names) or "(None)", 106, 110 *)
Definition names_or_none (l : list str) : str := match concat_with (lit ", ") l with [] => lit "(None)" | s => s end.
(** "Major: %i, Minor: %i" % version, 124 *)
Definition version_text (v : Z * Z) : str := lit "Major: " ++ dec (fst v) ++ lit ", Minor: " ++ dec (snd v).
(** sub_signature, 163-180, and the same in the templates of fields and methods:
    the second escape is reached only where the value is true *)
Definition signature_rows (changed : bool) (l r : option pyval) : res (list html) :=
  if changed then a <- esc_or_none l ;; b <- esc_or_none r ;; Ok (row_changed "Generics Signature" true a b)
  else if py_true l then a <- esc_or_none l ;; Ok (row_same "Generics Signature" a) else Ok [].
(** The details block, 7-28, with its functions, 37-200; [c] checked.  Rows in the
    order of the template. *)
Definition class_info_html (o : options) (c : change) (l r : classinfo) : res (list html) :=
  kids <- collect c ;;
  nc <- part_changed kids "ClassNameChange" ;; ln <- pretty_this l ;; rn <- pretty_this r ;;
  fc <- part_changed kids "ClassAccessflagsChange" ;;
  sc <- part_changed kids "ClassSuperclassChange" ;; ls <- pretty_super l ;; rs <- pretty_super r ;;
  ic <- part_changed kids "ClassInterfacesChange" ;; li <- pretty_interfaces l ;; ri <- pretty_interfaces r ;;
  vc <- part_changed kids "ClassVersionChange" ;;
  pc <- part_changed kids "ClassPlatformChange" ;;
  gc <- part_changed kids "ClassSignatureChange" ;;
  lg <- get_signature (c_pool l) (c_attrs l) ;; rg <- get_signature (c_pool r) (c_attrs r) ;;
  sig <- signature_rows gc lg rg ;;
  dc <- part_changed kids "ClassDeprecationChange" ;;
  h <- subreport_head c ;; change_div o c (h ++ details_div (el "table" (class_is "left-headers") (
    row_always "Class Name" nc false ln rn ++
    row_always "Class Flags" fc true (flags_text (c_flags l) (class_access_flags (c_flags l)))
                                     (flags_text (c_flags r) (class_access_flags (c_flags r))) ++
    row_always "Extends" sc true ls rs ++
    row_if_true "Implements" ic (match li with [] => false | _ => true end) (names_or_none li) (names_or_none ri) ++
    row_always "Java Version" vc true (version_text (c_version l)) (version_text (c_version r)) ++
    row_always "Java Platform" pc true (opt_text (platform_from_version (fst (c_version l)) (snd (c_version l))))
                                       (opt_text (platform_from_version (fst (c_version r)) (snd (c_version r)))) ++
    sig ++
    row_if_true "Deprecated" dc (is_deprecated (c_attrs l)) (str_bool (is_deprecated (c_attrs l))) (str_bool (is_deprecated (c_attrs r)))))).

(** ** The constant pool: classdiff_ClassConstantPoolChange.tmpl *)
Definition const_td (kind : String.string) (s : str) : list html := el "td" (class_is kind) (txt s).
(** render_constant_pool, 21-40 *)
Fixpoint pool_rows (l : list const) (i : Z) : res (list html) :=
  match l with
  | [] => Ok []
  | k :: l' =>
      x <- pretty_entry reprs ffmt k ;; rest <- pool_rows l' (i + 1) ;;
      Ok (match x with
          | None => rest
          | Some (t, v) =>
              el "tr" [] (const_td "const-index" (dec i) ++ const_td "const-type" t ++
                          const_td "const-value" (xml_entity_escape (str_pretty v))) ++ rest
          end)
  end.
(** str(v or ""), 63, 69: 0 and the empty text are written as nothing *)
Definition value_or_blank (v : option (str * pretty_val)) : str :=
  match v with Some (_, PNum z) => if z =? 0 then [] else dec z | Some (_, PText s) => s | None => [] end.
Definition type_or_blank (v : option (str * pretty_val)) : str := match v with Some (t, _) => t | None => [] end.
(** (lt, lv) == (rt, rv), 64 *)
Definition pretty_val_eqb (a b : pretty_val) : bool :=
  match a, b with PText s, PText t => seqb s t | PNum x, PNum y => x =? y | _, _ => false end.
Definition shown_eqb (a b : option (str * pretty_val)) : bool :=
  match a, b with None, None => true | Some (t, v), Some (t', v') => seqb t t' && pretty_val_eqb v v' | _, _ => false end.
(** One row of render_dual_constant_pool, 56-72; the end of the row is inside the #else *)
Definition dual_const_row (e : merge_entry) : list html :=
  let '(i, a, b) := e in
  Open (lit "tr") [] ::
  const_td "const-index" (dec i) ++ const_td "const-type" (type_or_blank a) ++
  const_td "const-value" (xml_entity_escape (value_or_blank a)) ++
  (if shown_eqb a b
   then el "td" (class_is "const-type empty") [] ++ el "td" (class_is "const-value empty") []
   else const_td "const-type is_changed" (type_or_blank b) ++
        const_td "const-value is_changed" (xml_entity_escape (value_or_blank b)) ++ [Close (lit "tr")]).
(** The details block, 7-17 *)
Definition pool_html (o : options) (c : change) (l r : classinfo) : res (list html) :=
  body <- (if is_change c then
             es <- pretty_merge_constants reprs ffmt (c_pool l) (c_pool r) ;;
             Ok (el "table" (class_is "dual-constant-pool")
                   (el "thead" [] (th_row (flat_map th ["Index"; "Original Type"; "Original Value"; "Modified Type"; "Modified Value"]%string)) ++
                    flat_map dual_const_row es))
           else
             rs <- pool_rows (tl (c_pool l)) 1 ;;
             Ok (el "table" (class_is "constant-pool") (el "thead" [] (th_row (flat_map th ["Index"; "Type"; "Value"]%string)) ++ rs))) ;;
  h <- subreport_head c ;; change_div o c (h ++ details_div body).

(** ** Fields: FieldAdded and FieldRemoved have the templates change_Addition and
    change_Removal, which are change_Change: the label *)
Definition member_label_html (o : options) (c : change) : res (list html) := change_div o c (label_div c).
(** classdiff_FieldChange.tmpl; [c] checked *)
Definition field_html (o : options) (c : change) (lp rp : pool) (l r : member) : res (list html) :=
  kids <- collect c ;;
  ln <- m_name lp l ;; rn <- m_name rp r ;; le <- esc_v ln ;; re <- esc_v rn ;;
  nc <- part_changed kids "FieldNameChange" ;;
  tc <- part_changed kids "FieldTypeChange" ;; lt <- m_pretty_type fmt lp l ;; rt <- m_pretty_type fmt rp r ;;
  fc <- part_changed kids "FieldAccessflagsChange" ;;
  gc <- part_changed kids "FieldSignatureChange" ;;
  lg <- get_signature lp (m_attrs l) ;; rg <- get_signature rp (m_attrs r) ;; sig <- signature_rows gc lg rg ;;
  cc <- part_changed kids "FieldConstvalueChange" ;; lv <- deref_constantvalue lp l ;; rv <- deref_constantvalue rp r ;;
  dc <- part_changed kids "FieldDeprecationChange" ;;
  va <- part kids "FieldAnnotationsChange" ;; vh <- annos_html o va A_vis lp rp (m_attrs l) (m_attrs r) ;;
  ia <- part kids "FieldInvisibleAnnotationsChange" ;; ih <- annos_html o ia A_invis lp rp (m_attrs l) (m_attrs r) ;;
  let const_text v := xml_entity_escape (match v with None => lit "None" | Some v => repr v end) in
  change_div o c (
    el "h3" [] (txt le) ++
    details_div (el "table" (class_is "left-headers") (
      (if nc then row_changed "Field Name" false le re else row_same_open "Field Name" le) ++
      (if tc then row_changed "Field Type" false lt rt else row_same_open "Field Type" lt) ++
      row_always "Field Flags" fc true (flags_text (m_flags l) (member_access_flags false l)) (flags_text (m_flags r) (member_access_flags false r)) ++
      sig ++
      row_if_true "Const Value" cc (py_true lv) (const_text lv) (const_text rv) ++
      row_if_true "Deprecated" dc (is_deprecated (m_attrs l)) (str_bool (is_deprecated (m_attrs l))) (str_bool (is_deprecated (m_attrs r))))) ++
    el "div" (class_is "collect") (vh ++ ih)).

(** ** Methods *)

(** escape("%s(%s):%s" % (name, ", ".join(args), type)), classdiff_MethodAdded.tmpl:7-14,
    classdiff_MethodRemoved.tmpl:7-14, classdiff_MethodChange.tmpl:8-15 *)
Definition method_heading (p : pool) (m : member) : res str :=
  n <- m_name p m ;; args <- m_pretty_arg_types fmt p m ;; t <- m_pretty_type fmt p m ;;
  Ok (xml_entity_escape (pct_s fmt n ++ in_parens args ++ lit ":" ++ t)).
(** row, classdiff_MethodAdded.tmpl:59-64 *)
Definition method_row (label : String.string) (data : str) : list html := row_same label (xml_entity_escape data).
(** method_table, classdiff_MethodAdded.tmpl:30-55 and classdiff_MethodRemoved.tmpl:30-55 *)
Definition method_table (p : pool) (m : member) : res (list html) :=
  n <- m_name p m ;; ne <- esc_v n ;; args <- m_pretty_arg_types fmt p m ;; t <- m_pretty_type fmt p m ;;
  sg <- get_signature p (m_attrs m) ;;
  sr <- (if py_true sg then a <- esc_or_none sg ;; Ok (row_same "Generics Signature" a) else Ok []) ;;
  ex <- pretty_exceptions p m ;; code <- get_code p m ;;
  Ok (el "table" (class_is "left-headers") (
    row_same "Method Name" ne ++
    method_row "Return Type" t ++
    method_row "Argument Types" (in_parens args) ++
    method_row "Method Flags" (flags_text (m_flags m) (member_access_flags false m)) ++
    sr ++
    (match ex with [] => [] | _ => method_row "Exceptions" (concat_with (lit ", ") ex) end) ++
    (match code with None => method_row "Abstract" (lit "True") | Some _ => [] end) ++
    (if is_deprecated (m_attrs m) then method_row "Deprecated" (lit "True") else []))).
(** classdiff_MethodAdded.tmpl; the end tag at line 15 is cut *)
Definition method_added_html (o : options) (c : change) (p : pool) (m : member) : res (list html) :=
  h <- method_heading p m ;; t <- method_table p m ;;
  change_div o c (el "h3" [] (txt h) ++ [Open (lit "div") (class_is "description"); Chars (lit "Method Added"); Cut (lit "div")] ++ details_div t).
(** classdiff_MethodRemoved.tmpl *)
Definition method_removed_html (o : options) (c : change) (p : pool) (m : member) : res (list html) :=
  h <- method_heading p m ;; t <- method_table p m ;;
  change_div o c (el "h3" [] (txt h) ++ el "div" (class_is "description") (txt (lit "Method Removed")) ++ details_div t).
(** classdiff_MethodChange.tmpl; [c] checked *)
Definition method_html (o : options) (c : change) (lp rp : pool) (l r : member) : res (list html) :=
  kids <- collect c ;;
  h <- method_heading lp l ;;
  ln <- m_name lp l ;; rn <- m_name rp r ;; le <- esc_v ln ;; re <- esc_v rn ;;
  nc <- part_changed kids "MethodNameChange" ;;
  tc <- part_changed kids "MethodTypeChange" ;; lt <- m_pretty_type fmt lp l ;; rt <- m_pretty_type fmt rp r ;;
  ac <- part_changed kids "MethodParametersChange" ;; la <- m_pretty_arg_types fmt lp l ;; ra <- m_pretty_arg_types fmt rp r ;;
  fc <- part_changed kids "MethodAccessflagsChange" ;;
  gc <- part_changed kids "MethodSignatureChange" ;;
  lg <- get_signature lp (m_attrs l) ;; rg <- get_signature rp (m_attrs r) ;; sig <- signature_rows gc lg rg ;;
  ec <- part_changed kids "MethodExceptionsChange" ;; lx <- pretty_exceptions lp l ;; rx <- pretty_exceptions rp r ;;
  bc <- part_changed kids "MethodAbstractChange" ;;
  lcode <- get_code lp l ;; rcode <- get_code rp r ;;
  let labs := match lcode with None => true | Some _ => false end in
  let rabs := match rcode with None => true | Some _ => false end in
  dc <- part_changed kids "MethodDeprecationChange" ;;
  va <- part kids "MethodAnnotationsChange" ;; vh <- annos_html o va A_vis lp rp (m_attrs l) (m_attrs r) ;;
  ia <- part kids "MethodInvisibleAnnotationsChange" ;; ih <- annos_html o ia A_invis lp rp (m_attrs l) (m_attrs r) ;;
  mc <- part kids "MethodCodeChange" ;; ch <- method_code_html o mc lcode rcode ;;
  change_div o c (
    el "h3" [] (txt h) ++
    details_div (el "table" (class_is "left-headers") (
      (if nc then row_changed "Method Name" false le re else row_same_open "Method Name" le) ++
      (if tc then row_changed "Return Type" false lt rt else row_same_open "Return Type" lt) ++
      row_always "Argument Types" ac false (in_parens la) (in_parens ra) ++
      row_always "Method Flags" fc true (flags_text (m_flags l) (member_access_flags false l)) (flags_text (m_flags r) (member_access_flags false r)) ++
      sig ++
      row_if_true "Exceptions" ec (match lx with [] => false | _ => true end) (in_parens lx) (in_parens rx) ++
      row_if_true "Abstract" bc labs (str_bool labs) (str_bool rabs) ++
      row_if_true "Deprecated" dc (is_deprecated (m_attrs l)) (str_bool (is_deprecated (m_attrs l))) (str_bool (is_deprecated (m_attrs r))))) ++
    el "div" (class_is "collect") (vh ++ ih ++ ch)).

(** ** Members: subreport.tmpl with the collect block of change_Change.tmpl:35-43,
    through classdiff_ClassFieldsChange.tmpl and classdiff_ClassMethodsChange.tmpl.
    The events of collect_members are put in the order of yield_sorted_by_type
    (classdiff.py:788, 821), as the checked children are. *)
Definition event_type (names : str * str * str) (e : mevent) : str :=
  match e with MAdded _ => fst (fst names) | MRemoved _ => snd (fst names) | MChanged _ _ => snd names end.
Definition sorted_events (names : str * str * str) (evs : list mevent) : list mevent :=
  iterate_by_type (event_type names) evs [fst (fst names); snd (fst names); snd names].
Definition field_names : str * str * str := (lit "FieldAdded", lit "FieldRemoved", lit "FieldChange").
Definition method_names : str * str * str := (lit "MethodAdded", lit "MethodRemoved", lit "MethodChange").
(** render_change(child), report.py:520-521: the template of each class, see Tmpl_Model *)
Definition field_event_html (o : options) (lp rp : pool) (x : change * mevent) : res (list html) :=
  match snd x with
  | MAdded _ | MRemoved _ => member_label_html o (fst x)
  | MChanged l r => field_html o (fst x) lp rp l r
  end.
Definition method_event_html (o : options) (lp rp : pool) (x : change * mevent) : res (list html) :=
  match snd x with
  | MAdded r => method_added_html o (fst x) rp r
  | MRemoved l => method_removed_html o (fst x) lp l
  | MChanged l r => method_html o (fst x) lp rp l r
  end.
Definition members_html (o : options) (c : change) (kids : list (list html)) : res (list html) :=
  h <- subreport_head c ;; change_div o c (h ++ match kids with [] => [] | _ => el "div" (class_is "collect") (concat kids) end).
Definition fields_html (o : options) (c : change) (l r : classinfo) : res (list html) :=
  evs <- collect_members fmt (c_pool l) (c_pool r) (c_fields l) (c_fields r) ;;
  kids <- collect c ;;
  hs <- mapM (field_event_html o (c_pool l) (c_pool r)) (combine kids (sorted_events field_names evs)) ;;
  members_html o c hs.
Definition methods_html (o : options) (c : change) (l r : classinfo) : res (list html) :=
  evs <- collect_members fmt (c_pool l) (c_pool r) (c_methods l) (c_methods r) ;;
  kids <- collect c ;;
  hs <- mapM (method_event_html o (c_pool l) (c_pool r)) (combine kids (sorted_events method_names evs)) ;;
  members_html o c hs.

(** ** The page: classdiff_JavaClassReport.tmpl and report.tmpl *)

(** The parts of the page that do not depend on the classes: breadcrumbs, style
    sheets, scripts, and html_no_jquery *)
Record page_env := mkenv { e_crumbs : list (str * str); e_styles : list str; e_scripts : list str; e_nojquery : bool }.
(** nom.split(".")[-1], classdiff_JavaClassReport.tmpl:11 *)
Definition last_part (s : str) : str :=
  fold_left (fun acc c => if c =? 46 then [] else acc ++ [c]) s [].
Definition jquery : str := lit "http://ajax.googleapis.com/ajax/libs/jquery/1.7.1/jquery.min.js".
(** report.tmpl:14-47 *)
Definition head_html (e : page_env) (title : str) : list html :=
  el "head" [] (
    el "title" [] (txt title) ++
    map (fun ss => Single (lit "link") [(lit "rel", lit "stylesheet"); (lit "type", lit "text/css"); (lit "href", ss)]) (e_styles e) ++
    (if e_nojquery e then [] else
       el "script" [(lit "type", lit "text/javascript"); (lit "src", jquery); (lit "type", lit "text/javascript")] []) ++
    flat_map (fun js => el "script" [(lit "type", lit "text/javascript"); (lit "src", js)] []) (e_scripts e)).
(** report.tmpl:54-71 *)
Definition heading_html (e : page_env) (title : str) : list html :=
  el "div" (attrs_of [("id", "report-heading")]%string) (
    el "ul" (class_is "breadcrumbs") (
      flat_map (fun pt => el "li" [] (el "a" [(lit "href", join (fst pt) (snd pt ++ lit ".html"))] (txt (snd pt)))) (e_crumbs e) ++
      el "li" [] (txt title)) ++
    el "h1" [] (txt title)).
(** report.tmpl *)
Definition page_html (e : page_env) (title : str) (kids : list (list html)) : list html :=
  Prolog ::
  el "html" [(lit "xmlns", lit "http://www.w3.org/1999/xhtml"); (lit "xml:lang", lit "en"); (lit "lang", lit "en")] (
    head_html e title ++
    el "body" [] (
      heading_html e title ++
      el "div" (attrs_of [("id", "report-intro")]%string) [] ++
      el "div" (attrs_of [("id", "report-details")]%string) (concat kids) ++
      el "div" (attrs_of [("id", "report-outro")]%string) [])).
(** The page of a JavaClassReport (classdiff.py:873-886), after check *)
Definition class_html (e : page_env) (o : options) (l r : classinfo) : res (list html) :=
  c <- check (class_change fmt reprs ffmt l r) ;;
  n <- pretty_this l ;;
  kids <- collect c ;;
  match kids with
  | [inf; va; ia; po; fs; ms] =>
      h1 <- class_info_html o inf l r ;;
      h2 <- annos_html o va A_vis (c_pool l) (c_pool r) (c_attrs l) (c_attrs r) ;;
      h3 <- annos_html o ia A_invis (c_pool l) (c_pool r) (c_attrs l) (c_attrs r) ;;
      h4 <- pool_html o po l r ;;
      h5 <- fields_html o fs l r ;;
      h6 <- methods_html o ms l r ;;
      Ok (page_html e (xml_entity_escape (lit "JavaClassReport " ++ last_part n)) [h1; h2; h3; h4; h5; h6])
  | _ => Err TypeError
  end.
End Html.
