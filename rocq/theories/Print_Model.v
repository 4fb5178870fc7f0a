(** Model of the text printed by /repo/javatools/classinfo.py, with the functions
    of /repo/javatools/__init__.py that write declarations.

    Simplification for the whole file: a call gives the text it prints, or the
    exception it raises; what was printed before an exception is not kept. *)
From Verif Require Import Base Pack_Model ConstPool_Model ClassFile_Model Descr_Model Opcodes_Model Anno_Model
  Classdiff_Model Info_Model.
From Verif Require Zip_Model.

(** ** Declarations *)

(** JavaClassInfo.pretty_descriptor, __init__.py:916-933 *)
Definition class_descriptor (c : classinfo) : res str :=
  let f := concat_with (lit " ") (class_access_flags (c_flags c)) ++
           (if flag ACC_INTERFACE (c_flags c) then [] else lit " class") in
  n <- pretty_this c ;; e <- pretty_super c ;; is <- pretty_interfaces c ;;
  let i := concat_with (lit ",") is in
  Ok (match i with
      | [] => f ++ lit " " ++ n ++ lit " extends " ++ e
      | _ => f ++ lit " " ++ n ++ lit " extends " ++ e ++ lit " implements " ++ i
      end).

Section Print.
(** as in Classdiff_Model and Info_Model: formatting; order of a set *)
Variable fmt : pyval -> str.
Variable repr : pyval -> str.
Variable reprs : str -> str.
Variable ffmt : pyval -> str.
Variable order : list str -> list str.

(** get_enclosingmethod, __init__.py:826-861: None, the class, or
    "class.method descriptor" *)
Definition get_enclosingmethod (c : classinfo) : res (option pyval) :=
  match get_attribute (c_attrs c) (lit "EnclosingMethod") with
  | None => Ok None
  | Some buff =>
      x <- parse_buf (p_unpack2 cH cH) buff ;;
      let '(cr, mr) := x in
      if negb (cr =? 0) && negb (mr =? 0) then
        cv <- deref_const (c_pool c) cr ;;
        mv <- deref_const (c_pool c) mr ;; nt <- unpair mv ;;
        Ok (Some (PStr (pct_s fmt cv ++ lit "." ++ pct_s fmt (fst nt) ++ pct_s fmt (snd nt))))
      else if negb (cr =? 0) then v <- deref_const (c_pool c) cr ;; Ok (Some v)
      else Ok None
  end.

(** ** Printing *)

(** print(s), and print(a, b) with the separator " " *)
Definition line (s : str) : str := s ++ [10].
Definition tab : str := [9].
(** str(None), str(v) *)
Definition str_opt (v : option pyval) : str := match v with None => lit "None" | Some v => pct_s fmt v end.
(** Truth of None, a str, a number or a tuple *)
Definition py_true (v : option pyval) : bool :=
  match v with
  | None => false
  | Some (PStr s) => negb (seqb s [])
  | Some (PInt z) => negb (z =? 0)
  | Some (PF32 b) => negb ((b =? 0) || (b =? 2147483648))
  | Some (PF64 b) => negb ((b =? 0) || (b =? 9223372036854775808))
  | Some (PPair _ _) => true
  end.
Definition when (b : bool) (s : str) : str := if b then s else [].

(** The options of add_classinfo_optgroup, classinfo.py:399-460, and
    options.indent, 386-388 *)
Record popts := mkpopts {
  o_verbose : bool; o_show : Z; o_sigs : bool; o_lines : bool; o_locals : bool; o_disassemble : bool;
  o_constpool : bool; o_indent : bool; o_provides : bool; o_requires : bool; o_api_ignore : list str }.
(** The start of cli, classinfo.py:375-388: what verbose implies, and indent *)
Definition cli_options (o : popts) : popts :=
  let v := o_verbose o in
  let l := o_lines o || v in let d := o_disassemble o || v in let s := o_sigs o || v in
  mkpopts v (o_show o) s l (o_locals o || v) d (o_constpool o || v) (negb (l || d || s))
    (o_provides o) (o_requires o) (o_api_ignore o).

(** The loop over annotations, classinfo.py:84-88, 108-112, 237-241: index is
    never incremented *)
Definition anno_lines (p : pool) (annos : list annotation) : res str :=
  match annos with
  | [] => Ok []
  | _ =>
      l <- mapM (pretty_annotation fmt p) annos ;;
      Ok (line (lit "  RuntimeVisibleAnnotations:") ++ concat (map (fun s => line (lit "  0: " ++ s)) l))
  end.
(** str(v) of the value pretty_const gives *)
Definition str_pretty (v : pretty_val) : str := match v with PText s => s | PNum z => dec z end.

(** print_field, classinfo.py:73-95 *)
Definition print_field (o : popts) (p : pool) (m : member) : res str :=
  d <- member_descriptor fmt p m ;;
  sg <- (if o_sigs o then s <- get_signature p (m_attrs m) ;; Ok (line (lit "  Signature: " ++ str_opt s)) else Ok []) ;;
  v <- (if o_verbose o then
          annos <- annotations_of p (m_attrs m) A_vis ;; al <- anno_lines p annos ;;
          cv <- get_constantvalue m ;;
          cl <- match cv with
                | None => Ok []
                | Some i => x <- pretty_const reprs ffmt p i ;;
                            Ok (match x with
                                | None => []
                                | Some (t, v) => line (lit "  Constant value: " ++ t ++ lit " " ++ str_pretty v)
                                end)
                end ;;
          Ok (al ++ cl ++ line [])
        else Ok []) ;;
  Ok (when (o_indent o) (lit "   ") ++ line (d ++ lit ";") ++ sg ++ v).

(** str of a tuple of integers and of the lists opcodes.py:187, 206 give *)
Definition str_pair (x : Z * Z) : str := lit "(" ++ dec (fst x) ++ lit ", " ++ dec (snd x) ++ lit ")".
Definition str_single (z : Z) : str := lit "(" ++ dec z ++ lit ",)".
Definition str_list {A} (f : A -> str) (l : list A) : str := lit "[" ++ concat_with (lit ", ") (map f l) ++ lit "]".
(** [str(arg) for arg in args], classinfo.py:135 *)
Definition arg_strs (a : opargs) : list str :=
  match a with
  | AInts l => map dec l
  | ALookup d ps => [dec d; str_list str_pair ps]
  | ATable d lo hi os => [dec d; dec lo; dec hi; str_list str_single os]
  end.
(** One line of the code, classinfo.py:131-138 *)
Definition insn_line (i : insn) : res str :=
  n <- get_opname_by_code (i_code i) ;;
  Ok (line (lit "   " ++ dec (Z.of_nat (i_off i)) ++ lit ":" ++ tab ++ n ++
            match arg_strs (i_args i) with [] => [] | l => tab ++ concat_with (lit ", ") l end)).
(** "% 4i" % n: a space or a sign, then the digits, at least four wide *)
Definition fmt4 (z : Z) : str :=
  let s := if z <? 0 then dec z else lit " " ++ dec z in
  repeat 32 (4 - length s) ++ s.
(** One line of the exception table, classinfo.py:144-147 *)
Definition handler_line (p : pool) (e : exinfo) : res str :=
  t <- pretty_catch_type p e ;;
  Ok (line (lit "  " ++ fmt4 (ex_start e) ++ tab ++ fmt4 (ex_end e) ++ tab ++ fmt4 (ex_handler e) ++ tab ++ t)).
(** The block after [if options.disassemble and code], classinfo.py:114-147.  A
    JavaCodeInfo is always true. *)
Definition code_text (o : popts) (p : pool) (m : member) (k : code) : res str :=
  st <- (if o_verbose o then
           args <- m_arg_types fmt p m ;;
           let argsc := Z.of_nat (length args) + (if flag ACC_STATIC (m_flags m) then 0 else 1) in
           Ok (line (lit "   Stack=" ++ dec (k_max_stack k) ++ lit ", Locals=" ++ dec (k_max_locals k) ++
                     lit ", Args_size=" ++ dec argsc))
         else Ok []) ;;
  dis <- disassemble_all (k_code k) ;; ls <- mapM insn_line dis ;;
  hs <- mapM (handler_line p) (k_exceptions k) ;;
  Ok (line (lit "  Code:") ++ st ++ concat ls ++
      match hs with
      | [] => []
      | _ => line (lit "  Exception table:") ++
             line (lit "   from" ++ tab ++ lit "to" ++ tab ++ lit "target" ++ tab ++ lit "type") ++ concat hs
      end).
(** The line number table, classinfo.py:162-167 *)
Definition lines_text (k : code) : res str :=
  t <- get_linenumbertable k ;;
  Ok (match t with
      | [] => []
      | _ => line (lit "  LineNumberTable:") ++
             concat (map (fun ol => line (lit "   line " ++ dec (snd ol) ++ lit ": " ++ dec (fst ol))) t)
      end).
(** One line of the tables of local variables, classinfo.py:182-184, 189-191:
    "\t".join takes str only.  method.cpool is a JavaConstantPool, always true. *)
Definition join_str (v : pyval) : res str := match v with PStr s => Ok s | _ => Err TypeError end.
Definition local_line (p : pool) (row : list Z) : res str :=
  match row with
  | [o; l; n; d; i] =>
      nv <- deref_const p n ;; dv <- deref_const p d ;; ns <- join_str nv ;; ds <- join_str dv ;;
      Ok (line (lit "   " ++ concat_with tab [dec o; dec l; dec i; ns; ds]))
  | _ => Err ValueError
  end.
Definition locals_table (p : pool) (title : String.string) (heading : str) (rows : list (list Z)) : res str :=
  match rows with
  | [] => Ok []
  | _ => ls <- mapM (local_line p) rows ;; Ok (line (lit title) ++ line heading ++ concat ls)
  end.
(** classinfo.py:169-191 *)
Definition locals_text (p : pool) (k : code) : res str :=
  lvt <- get_localvariabletable k ;; lvtt <- get_localvariabletypetable k ;;
  a <- locals_table p "  LocalVariableTable:"
         (lit "   Start  Length  Slot" ++ tab ++ lit "Name" ++ tab ++ lit "Descriptor") lvt ;;
  b <- locals_table p "  LocalVariableTypeTable:"
         (lit "   Start  Length  Slot" ++ tab ++ lit "Name" ++ tab ++ lit "Signature") lvtt ;;
  Ok (a ++ b).
(** print_method, classinfo.py:98-200.  pretty_exceptions() is a generator, so
    [if exps] (195) is always true. *)
Definition print_method (o : popts) (p : pool) (m : member) : res str :=
  d <- member_descriptor fmt p m ;;
  sg <- (if o_sigs o then s <- get_signature p (m_attrs m) ;; Ok (line (lit "  Signature: " ++ str_opt s)) else Ok []) ;;
  annos <- annotations_of p (m_attrs m) A_vis ;; al <- anno_lines p annos ;;
  code <- get_code p m ;;
  ct <- match code with Some k => if o_disassemble o then code_text o p m k else Ok [] | None => Ok [] end ;;
  let flags :=
    when (o_verbose o)
      (when (is_deprecated (m_attrs m)) (line (lit "  Deprecated: true")) ++
       when (is_synthetic m) (line (lit "  Synthetic: true")) ++
       when (flag ACC_BRIDGE (m_flags m)) (line (lit "  Bridge: true")) ++
       when (flag ACC_VARARGS (m_flags m)) (line (lit "  Varargs: true"))) in
  lt <- match code with Some k => if o_lines o then lines_text k else Ok [] | None => Ok [] end ;;
  vt <- match code with Some k => if o_locals o then locals_text p k else Ok [] | None => Ok [] end ;;
  et <- (if o_verbose o then
           ex <- pretty_exceptions p m ;;
           Ok (line (lit "  Exceptions:") ++ concat (map (fun e => line (lit "   throws " ++ e)) ex) ++ line [])
         else Ok []) ;;
  Ok (when (o_indent o) (lit "   ") ++ line (d ++ lit ";") ++ sg ++ al ++ ct ++ flags ++ lt ++ vt ++ et).

(** cli_class_provides, cli_class_requires, classinfo.py:203-217 *)
Definition symbols_text (title : String.string) (this : res str) (syms : res (list str)) : res str :=
  n <- this ;; l <- syms ;;
  Ok (line (lit "class " ++ n ++ lit title) ++
      concat (map (fun s => line (lit "  " ++ s)) (Zip_Model.sort_names l)) ++ line []).
Definition print_provides (o : popts) (c : classinfo) : res str :=
  symbols_text " provides:" (pretty_this c) (get_provides fmt order c (o_api_ignore o) false).
Definition print_requires (o : popts) (c : classinfo) : res str :=
  symbols_text " requires:" (pretty_this c) (get_requires fmt repr order c (o_api_ignore o)).

(** The header in verbose mode or for --header, classinfo.py:234-250 *)
Definition header_text (c : classinfo) : res str :=
  sf <- get_sourcefile c ;;
  sg <- get_signature (c_pool c) (c_attrs c) ;;
  annos <- annotations_of (c_pool c) (c_attrs c) A_vis ;; al <- anno_lines (c_pool c) annos ;;
  em <- get_enclosingmethod c ;;
  Ok (line [] ++
      when (py_true sf) (line (lit "  SourceFile: """ ++ str_opt sf ++ lit """")) ++
      when (py_true sg) (line (lit "  Signature: " ++ str_opt sg)) ++
      al ++
      when (py_true em) (line (lit "  EnclosingMethod: " ++ str_opt em)) ++
      concat (map line (version_lines c)) ++
      line (lit "  Platform: " ++ match platform_from_version (fst (c_version c)) (snd (c_version c)) with
                                  | Some ((_ :: _) as s) => s
                                  | _ => lit "unknown"
                                  end)).
(** The constants pool, classinfo.py:252-266 *)
Fixpoint const_lines (l : list const) (i : Z) : res str :=
  match l with
  | [] => Ok []
  | c :: l' =>
      x <- pretty_entry reprs ffmt c ;;
      rest <- const_lines l' (i + 1) ;;
      Ok (match x with
          | None => rest
          | Some (t, v) => line (lit "const #" ++ dec i ++ lit " = " ++ t ++ tab ++ str_pretty v ++ lit ";") ++ rest
          end)
  end.
Definition constpool_text (p : pool) : res str :=
  ls <- const_lines (tl p) 1 ;; Ok (line (lit "  Constants pool:") ++ ls ++ line []).

(** cli_print_classinfo, classinfo.py:220-284 *)
Definition print_classinfo (o : popts) (c : classinfo) : res str :=
  if o_provides o || o_requires o then
    a <- (if o_provides o then print_provides o c else Ok []) ;;
    b <- (if o_requires o then print_requires o c else Ok []) ;;
    Ok (a ++ b)
  else
    sf <- get_sourcefile c ;;
    d <- class_descriptor c ;;
    h <- (if o_verbose o || (o_show o =? SHOW_HEADER) then header_text c else Ok []) ;;
    cp <- (if o_constpool o then constpool_text (c_pool c) else Ok []) ;;
    body <- (if o_show o =? SHOW_HEADER then Ok [] else
               fs <- mapM (print_field o (c_pool c)) (filter (should_show (o_show o)) (c_fields c)) ;;
               ms <- mapM (print_method o (c_pool c)) (filter (should_show (o_show o)) (c_methods c)) ;;
               Ok (line (lit "{") ++ concat fs ++ concat ms ++ line (lit "}" ++ [10]))) ;;
    Ok (when (py_true sf) (line (lit "Compiled from """ ++ str_opt sf ++ lit """")) ++ d ++ h ++ cp ++ body).

(** cli for one file without --json, classinfo.py:375-397, 287-289 *)
Definition cli_print (o : popts) (c : classinfo) : res str := print_classinfo (cli_options o) c.
End Print.
