(** Model of the single report that classdiff, jardiff and distdiff print or write to
    the file of -o: /repo/javatools/report.py:346-398, 627-639 as a sequence of
    writes, so that what a failing report leaves behind is known. *)
From Verif Require Import Base Change_Model.

(** The recursion over the sub-changes, report.py:384-385: the first exception ends it,
    what has been written stays *)
Fixpoint in_turn (l : list (str * option exn)) : str * option exn :=
  match l with
  | [] => ([], None)
  | (s, Some e) :: _ => (s, Some e)
  | (s, None) :: l' => let '(s', r) := in_turn l' in (s ++ s', r)
  end.

(** report.py:359-385 _indent_change: what is written, and the exception.  The writes of
    one line (388-398) are taken as one. *)
Fixpoint put (o : options) (n : nat) (c : change) : str * option exn :=
  let 'Node k ch d cs im := c in
  match get_description c with
  | Err e => ([], Some e)
  | Ok desc =>
      let rest := fun l : str =>
        match pick false k ch (map (put o (S n)) cs) (map (put o (S n)) im) with
        | Err e => (l, Some e)
        | Ok rs => let '(s, r) := in_turn rs in (l ++ s, r)
        end in
      if is_change c then
        match is_ignored o c with
        | Err e => ([], Some e)
        | Ok true => if show_ignored o then rest (indent_line n [desc; lit " [IGNORED]"]) else ([], None)
        | Ok false => rest (indent_line n [desc])
        end
      else if show_unchanged o then rest (indent_line n [desc]) else ([], None)
  end.

(** The files by name and what was printed: the effects of report.py:634-639.  A file
    has one name. *)
Record world := mkworld { w_files : str -> option str; w_out : str }.

Section Quick.
(** Whether [open(fn, "w")] at report.py:635 raises *)
Variable refuses : str -> option exn.
(** The text json.dump (report.py:297) writes for a document, and what it has written
    when the document cannot be completed: not modelled *)
Variable document : options -> json -> str.
Variable begun : options -> change -> str.

(** run_impl of JSONReportFormat (report.py:284-302) and of TextReportFormat (354-356),
    with [out] given (207-209) *)
Definition run_format (json : bool) (o : options) (c : change) : str * option exn :=
  if json then match json_of o c with Ok j => (document o j, None) | Err e => (begun o c, Some e) end
  else put o 0 c.

(** quick_report, report.py:627-639; the file is closed in any case (a context manager) *)
Definition quick_report (json : bool) (output : option str) (o : options) (c : change) (w : world) : world * option exn :=
  match output with
  | Some (x :: p) =>
      match refuses (x :: p) with
      | Some e => (w, Some e)
      | None => let '(t, r) := run_format json o c in (mkworld (fun q => if seqb q (x :: p) then Some t else w_files w q) (w_out w), r)
      end
  | _ => let '(t, r) := run_format json o c in (mkworld (w_files w) (w_out w ++ t), r)
  end.

(** classdiff.py:962-975, jardiff.py:532-545, distdiff.py:572-585: from check to the exit
    status, without --report *)
Definition one_shot (silent json : bool) (output : option str) (o : options) (c0 : change) (w : world) : world * res Z :=
  match check c0 with
  | Err e => (w, Err e)
  | Ok c =>
      let '(w', r) := if silent then (w, None) else quick_report json output o c w in
      (w', match r with Some e => Err e | None => exit_status o c end)
  end.
End Quick.
