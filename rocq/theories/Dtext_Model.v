(** Model of the change that the command line of distdiff reports
    (/repo/javatools/distdiff.py), with its description. *)
From Verif Require Import Base Pack_Model ConstPool_Model Classdiff_Model Jardiff_Model Change_Model Distdiff_Model.
From Verif Require Zip_Model.

Section Dtext.
(** As in Distdiff_Model. *)
Variable fmt : pyval -> str.
Variable reprs : str -> str.
Variable ffmt : pyval -> str.
Variable text : bytes -> res str.
Variable order : list str -> list str.
Variable up : Z -> str.
Variable unzip : bytes -> jar.
(** The names of the directories, as given on the command line *)
Variables lname rname : str.
Variables left right : Zip_Model.node.

(** DistChange.get_description, distdiff.py:289-292 *)
Definition dist_description (b : bool) : str :=
  lit "Distribution" ++ (if b then lit " changed" else lit " unchanged") ++ lit " from " ++ lname ++ lit " to " ++ rname.
(** DistChange, distdiff.py:281-371 *)
Definition dist_change_at (shallow : bool) : change :=
  let evs := dist_events fmt reprs ffmt text order up unzip left right shallow in
  super "DistChange" "Distribution" (Some (fun b : bool => Ok (dist_description b)))
    (match evs with Err e => Some e | Ok _ => None end)
    (match evs with Ok evs => map (dist_event fmt reprs ffmt text order up unzip left right shallow) evs | Err _ => [] end).
(** cli_dist_diff without --report and with the text format, distdiff.py:558-585:
    what is written, and the exit status *)
Definition distdiff_text (o : options) (shallow : bool) : res (str * Z) :=
  c <- check (dist_change_at shallow) ;; t <- text_report o c ;; s <- exit_status o c ;; Ok (t, s).
End Dtext.
