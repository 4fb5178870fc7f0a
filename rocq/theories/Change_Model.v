(** Model of javatools/change.py and of the text and JSON reports of
    javatools/report.py.

    A change object is a tree node.  What a Python subclass contributes through
    overriding is a record ([cls]); the mutable attributes ([changed],
    [description], [changes]) are fields of the node. *)
From Verif Require Import Base.

(** ** Grouping by type *)
Section ByType.
Context {A : Type}.
(** [type(val)].  A class is identified by its name; the names of the classes
    of /repo are distinct. *)
Variable tyof : A -> str.

(** change.py:59-77 collect_by_type (with cache=None, as every caller does);
    change.py:37-56 collect_by_typename is the same function here. *)
Definition collect_by_type (objs : list A) : dict (list A) :=
  fold_left (fun cache v =>
    match dget cache (tyof v) with
    | Some bucket => dset cache (tyof v) (bucket ++ [v])
    | None => dset cache (tyof v) [v]
    end) objs [].

(** change.py:91-93: [for t in typelist: for val in cache.pop(t, ())] *)
Fixpoint pop_types (cache : dict (list A)) (typelist : list str) : list A * dict (list A) :=
  match typelist with
  | [] => ([], cache)
  | t :: ts =>
      let vs := match dget cache t with Some b => b | None => [] end in
      let (r, c) := pop_types (ddel cache t) ts in (vs ++ r, c)
  end.

(** change.py:80-97 iterate_by_type, and through it 100-118 yield_sorted_by_type *)
Definition iterate_by_type (objs : list A) (typelist : list str) : list A :=
  let (r, c) := pop_types (collect_by_type objs) typelist in r ++ concat (map snd c).
End ByType.

(** ** Options (the argparse namespace), the fields that are read.
    classdiff.py:985-1016 and 1084-1105, jardiff.py:554-577, distdiff.py:593-619. *)
Record options := mkopts {
  show_unchanged : bool; show_ignored : bool;
  ignore_version_up : bool; ignore_version_down : bool;
  ignore_platform_up : bool; ignore_platform_down : bool;
  ignore_absolute_lines : bool; ignore_relative_lines : bool;
  ignore_deprecated : bool; ignore_added : bool; ignore_pool : bool; ignore_lines : bool;
  ignore_jar_entry : list str; ignore_jar_signature : bool;
  ignore_manifest : bool; ignore_manifest_subsections : bool; ignore_manifest_key : list str;
  ignore_filenames : list str; ignore_trailing_whitespace : bool
}.

(** ** Change objects *)

(** How [check] behaves: change.py:149-150 (nothing), 331-361 (the result of
    check_impl, which may raise), 457-468 (check the sub-changes). *)
Inductive checking :=
| CheckNothing
| CheckOwn (r : res (bool * option str))
| CheckParts.

(** Python values that appear in descriptions and in the entries old_data and
    new_data of simplify.  A float is represented by its text ([ONum]). *)
Inductive pyobj :=
| ONone | OBool (b : bool) | OInt (z : Z) | ONum (t : str) | OStr (s : str)
| OTuple (l : list pyobj) | OList (l : list pyobj) | ODict (l : list (str * pyobj)).
(** [if ld is not None: simple["old_data"] = ld], change.py:374-380 *)
Definition not_none (m : res pyobj) : res (option pyobj) :=
  o <- m ;; Ok (match o with ONone => None | _ => Some o end).

(** What a subclass defines.  [k_refs] are the identities of the objects held in
    ldata and rdata. *)
Record cls := mkcls {
  k_name : str;                      (* type(self).__name__ *)
  k_label : str;                     (* label *)
  k_always : bool;                   (* is_change is that of Addition / Removal (219-220, 231-232) *)
  k_addition : bool; k_removal : bool;  (* isinstance(self, Addition / Removal) *)
  k_text : option (bool -> res str); (* get_description, if overridden: by is_change() *)
  k_own : options -> bool;           (* the part of is_ignored decided by the subclass *)
  k_parts : bool;                    (* is_ignored also consults SuperChange.is_ignored (471-488) *)
  k_check : checking;
  k_super : bool;                    (* SuperChange: collect() gives sub-changes *)
  k_gate : bool;                     (* collect_impl yields only if is_change(), as in jardiff.py:154-162 *)
  k_incheck : bool;                  (* collect_impl works only inside check_impl, as in jardiff.py:322-329 *)
  k_raises : option exn;             (* an exception raised by collect_impl *)
  k_entry : option str;              (* entry *)
  k_orig : option str;               (* origclass, for squashed changes *)
  k_refs : list Z;
  k_old : res (option pyobj);        (* pretty_ldata() as simplify keeps it (374-376), after check() *)
  k_new : res (option pyobj)         (* pretty_rdata() (378-380) *)
}.
(** No old_data or new_data: classes that are no GenericChange, and SuperChange.fn_pretty (415-416) *)
Definition no_data : res (option pyobj) := Ok None.

(** [Node k changed description changes impl]: [changes] is the cached tuple,
    [impl] what collect_impl would produce. *)
Inductive change := Node (k : cls) (changed : bool) (description : option str) (changes impl : list change).

Definition k_of (c : change) := let 'Node k _ _ _ _ := c in k.

(** change.py:161-162, 219-220, 231-232, 560-561 is_change *)
Definition is_change (c : change) : bool := let 'Node k ch _ _ _ := c in k_always k || ch.

(** change.py:174-176 get_description: [self.description or (label + ...)] *)
Definition get_description (c : change) : res str :=
  let 'Node k _ d _ _ := c in
  match k_text k with
  | Some f => f (is_change c)
  | None =>
      Ok (match d with
          | Some (x :: s) => x :: s
          | _ => k_label k ++ (if is_change c then lit " changed" else lit " unchanged")
          end)
  end.

(** change.py:179-180 and 444-454 collect: the cached tuple, or if that is empty
    the outcome of collect_impl.  Storing the outcome in the cache is not
    modelled for callers other than check: collect_impl would give equal objects
    again.  Polymorphic, so that it can select among already mapped children. *)
Definition pick {A} (inside : bool) (k : cls) (ch : bool) (changes impl : list A) : res (list A) :=
  match changes with
  | _ :: _ => Ok changes
  | [] =>
      if negb (k_super k) then Ok []
      else if k_incheck k && negb inside then Err AssertionError
      else if k_gate k && negb (k_always k || ch) then Ok []
      else match k_raises k with Some e => Err e | None => Ok impl end
  end.
Definition collect (c : change) : res (list change) := let 'Node k ch _ cs im := c in pick false k ch cs im.
(** collect as called from check_impl *)
Definition collect_in (c : change) : res (list change) := let 'Node k ch _ cs im := c in pick true k ch cs im.

(** The results of calling a method on each child in order: the first exception wins. *)
Fixpoint sequence {A} (l : list (res A)) : res (list A) :=
  match l with
  | [] => Ok []
  | r :: rs => x <- r ;; xs <- sequence rs ;; Ok (x :: xs)
  end.

(** change.py:149-150, 355-361 (with 331-352) and 457-468 check; returns the object afterwards. *)
Fixpoint check (c : change) : res change :=
  let 'Node k ch d cs im := c in
  match k_check k with
  | CheckNothing => Ok c
  | CheckOwn r => '(b, d') <- r ;; Ok (Node k b d' cs im)
  | CheckParts =>
      rs <- pick true k ch (map check cs) (map check im) ;;
      kids <- sequence rs ;;
      Ok (Node k (existsb is_change kids) None kids im)
  end.

(** change.py:485-488, the loop of SuperChange.is_ignored, over the pairs
    (is_change(), is_ignored(options)) of the children *)
Fixpoint all_ignored (l : list (bool * res bool)) : res bool :=
  match l with
  | [] => Ok true
  | (false, _) :: l' => all_ignored l'
  | (true, r) :: l' => b <- r ;; if b then all_ignored l' else Ok false
  end.

(** change.py:165-171, 471-488, 556-557 is_ignored and the overriding methods of
    the subclasses, all of the form: own condition or the rule of SuperChange *)
Fixpoint is_ignored (o : options) (c : change) : res bool :=
  let 'Node k ch d cs im := c in
  if k_own k o then Ok true
  else if negb (k_parts k) then Ok false
  else if negb (is_change c) then Ok false
  else
    let f kid := (is_change kid, is_ignored o kid) in
    kids <- pick false k ch (map f cs) (map f im) ;;
    match kids with [] => Ok false | _ => all_ignored kids end.

(** ** Squashing *)

Definition N_Squashed := lit "SquashedChange".
Definition N_SquashedRemoval := lit "SquashedRemoval".
Definition N_SquashedAddition := lit "SquashedAddition".

(** change.py:535-587 the constructors of SquashedChange, SquashedRemoval and
    SquashedAddition, given [change.get_description()]; is_change and is_ignored
    return what was stored. *)
Definition squashed (name : str) (add rem : bool) (c : change) (desc : str) (ignored : bool) : change :=
  Node (mkcls name (k_label (k_of c)) false add rem None (fun _ => ignored) false
          CheckNothing false false false None (k_entry (k_of c)) (Some (k_name (k_of c))) [] no_data no_data)
       (is_change c) (Some desc) [] [].

(** change.py:590-606 squash(change, is_ignored, options) *)
Definition squash (c : change) (ignored : bool) (o : option options) : res change :=
  ig <- match o with Some o' => is_ignored o' c | None => Ok ignored end ;;
  d <- get_description c ;;
  Ok (if k_removal (k_of c) then squashed N_SquashedRemoval false true c d ig
      else if k_addition (k_of c) then squashed N_SquashedAddition true false c d ig
      else squashed N_Squashed false false c d ig).

(** change.py:522-532 squash_children (options given).  The replaced children
    are cleared; they are not reachable from the result. *)
Definition squash_children (c : change) (o : options) : res change :=
  let 'Node k ch d cs im := c in
  kids <- collect c ;;
  ks <- mapM (fun kid => squash kid false (Some o)) kids ;;
  Ok (Node k ch d ks im).

(** change.py:141-146, 419-428, 570-571 clear: ldata and rdata dropped, not
    changed any more, no children.  Afterwards a SuperChange cannot collect
    (its data are None); only the remaining attributes are modelled. *)
Definition clear (c : change) : change :=
  let 'Node k ch d cs im := c in
  match k_orig k with
  | Some _ => c
  | None => Node (mkcls (k_name k) (k_label k) (k_always k) (k_addition k) (k_removal k) (k_text k) (k_own k) (k_parts k)
                    (k_check k) false (k_gate k) (k_incheck k) (k_raises k) None None [] (k_old k) (k_new k)) false None [] []
  end.

(** All objects under comparison that are reachable from a change. *)
Fixpoint refs (c : change) : list Z :=
  let 'Node k _ _ cs im := c in k_refs k ++ concat (map refs cs) ++ concat (map refs im).

(** ** Text report *)

(** One hexadecimal digit, and [n] of them. *)
Definition hexdigit (d : Z) : Z := if d <? 10 then 48 + d else 87 + d.
Fixpoint hexpad (n : nat) (c : Z) : str :=
  match n with O => [] | S n' => hexpad n' (c / 16) ++ [hexdigit (c mod 16)] end.
(** [x.encode("ascii", "backslashreplace").decode("ascii")] (report.py:397) *)
Definition escape1 (c : Z) : str :=
  if c <? 128 then [c]
  else if c <? 256 then 92 :: 120 :: hexpad 2 c
  else if c <? 65536 then 92 :: 117 :: hexpad 4 c
  else 92 :: 85 :: hexpad 8 c.
Definition escape (s : str) : str := concat (map escape1 s).

(** report.py:388-398 _indent *)
Definition indent_line (n : nat) (msgs : list str) : str :=
  concat (repeat [32; 32] n) ++ concat (map escape msgs) ++ [10].

(** report.py:359-385 _indent_change: the text written.  The description is
    asked for whether or not it is shown. *)
Fixpoint indent_change (o : options) (n : nat) (c : change) : res str :=
  let 'Node k ch d cs im := c in
  desc <- get_description c ;;
  let rest := fun tt : unit =>
    rs <- pick false k ch (map (indent_change o (S n)) cs) (map (indent_change o (S n)) im) ;;
    ls <- sequence rs ;; Ok (concat ls) in
  if is_change c then
    ig <- is_ignored o c ;;
    if ig then
      if show_ignored o then r <- rest tt ;; Ok (indent_line n [desc; lit " [IGNORED]"] ++ r) else Ok []
    else r <- rest tt ;; Ok (indent_line n [desc] ++ r)
  else if show_unchanged o then r <- rest tt ;; Ok (indent_line n [desc] ++ r)
  else Ok [].

(** report.py:354-356 TextReportFormat.run_impl *)
Definition text_report (o : options) (c : change) : res str := indent_change o 0 c.

(** ** JSON report *)

(** The dict made by simplify (change.py:183-208, 364-383, 491-519, 564-567).
    The last three are None when there is no such key. *)
Inductive json := J (j_class : str) (j_change : bool) (j_desc j_label : str) (j_ignored j_addition j_removal : bool)
  (j_entry j_orig : option str) (j_old j_new : option pyobj) (j_children : option (list json)).

(** change.py:510-516: which sub-changes are kept *)
Definition keep (o : options) (chg : bool) (ign : res bool) : res bool :=
  if chg then if show_ignored o then Ok true else b <- ign ;; Ok (negb b)
  else Ok (show_unchanged o).

(** change.py:491-519 with report.py:328-343: JSONEncoder calls default, hence
    simplify, on every change it meets.  Options are given (a namespace is true). *)
Fixpoint json_of (o : options) (c : change) : res json :=
  let 'Node k ch d cs im := c in
  desc <- get_description c ;;
  ig <- is_ignored o c ;;
  old <- k_old k ;; new <- k_new k ;;
  let mk := J (k_name k) (is_change c) desc (k_label k) ig (k_addition k) (k_removal k)
              (match k_entry k with Some (x :: s) => Some (x :: s) | _ => None end) (k_orig k) old new in
  if k_super k then
    let f kid := (keep o (is_change kid) (is_ignored o kid), fun tt : unit => json_of o kid) in
    kids <- pick false k ch (map f cs) (map f im) ;;
    marks <- sequence (map fst kids) ;;
    subs <- sequence (map (fun p => snd (fst p) tt) (filter snd (combine kids marks))) ;;
    Ok (mk (Some subs))
  else Ok (mk None).

(** ** Exit status: classdiff.py:972-975, jardiff.py:542-545, distdiff.py:582-585 *)
Definition exit_status (o : options) (c : change) : res Z :=
  if negb (is_change c) then Ok 0
  else ig <- is_ignored o c ;; Ok (if ig then 0 else 1).
