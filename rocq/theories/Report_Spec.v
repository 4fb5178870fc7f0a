(** Specification of report files and links, independent of the path functions
    of the model: where a path leads when it is followed from a directory.
    Directories are given by the list of names from the root; symbolic links are
    left aside. *)
From Verif Require Import Base Report_Model Zip_Spec Jardiff_Spec.
From Verif Require Zip_Model.

(** The pieces of a path between slashes. *)
Inductive Parts : str -> list str -> Prop :=
| parts_last w : ~ In 47 w -> Parts w [w]
| parts_more w s ws : ~ In 47 w -> Parts s ws -> Parts (w ++ 47 :: s) (w :: ws).

Definition plain_name (n : str) : Prop := n <> [] /\ n <> lit "." /\ n <> lit ".." /\ ~ In 47 n.

(** Going from the directory [d] through the pieces arrives at [d']. *)
Inductive Walk : list str -> list str -> list str -> Prop :=
| walk_end d : Walk d [] d
| walk_stay d p ps d' : p = [] \/ p = lit "." -> Walk d ps d' -> Walk d (p :: ps) d'
| walk_root ps d' : Walk [] ps d' -> Walk [] (lit ".." :: ps) d'
| walk_up d n ps d' : Walk d ps d' -> Walk (d ++ [n]) (lit ".." :: ps) d'
| walk_down d n ps d' : n <> [] -> n <> lit "." -> n <> lit ".." -> Walk (d ++ [n]) ps d' -> Walk d (n :: ps) d'.

(** Following the path [p] from the directory [d] leads to [d']. *)
Inductive leads (d : list str) (p : str) (d' : list str) : Prop :=
| leads_relative ps : (forall q, p <> 47 :: q) -> Parts p ps -> Walk d ps d' -> leads d p d'
| leads_absolute q ps : p = 47 :: q -> Parts p ps -> Walk [] ps d' -> leads d p d'.

(** [f] is below the directory [d]. *)
Definition below (d f : list str) : Prop := exists rest, rest <> [] /\ f = d ++ rest.
(** A relative path of ordinary names. *)
Definition ordinary (p : str) (ns : list str) : Prop := Parts p ns /\ Forall plain_name ns.

(** ** Formats *)
Inductive names_format : str -> format -> Prop :=
| names_json : names_format (lit "json") FJson
| names_txt : names_format (lit "txt") FText
| names_text : names_format (lit "text") FText
| names_htm : names_format (lit "htm") FHtml
| names_html : names_format (lit "html") FHtml.
(** The last part of the names of the files of a format. *)
Inductive suffix : format -> str -> Prop :=
| suffix_json : suffix FJson (lit ".json")
| suffix_text : suffix FText (lit ".text")
| suffix_html : suffix FHtml (lit ".html").
(** [w] is one of the comma separated fields of [v]. *)
Definition field (v w : str) : Prop :=
  ~ In 44 w /\ exists a b, v = a ++ w ++ b /\ (a = [] \/ exists a', a = a' ++ [44]) /\ (b = [] \/ exists b', b = 44 :: b').

(** ** Order of events *)
(** What happened to the format [f]. *)
Inductive step := DidSetup | DidRun | DidClear.
Definition about (f : format) (e : event) : option step :=
  match e with
  | ESetup i => if format_eqb f (i_fmt i) then Some DidSetup else None
  | EWrite _ i _ _ => if format_eqb f (i_fmt i) then Some DidRun else None
  | EClear i => if format_eqb f (i_fmt i) then Some DidClear else None
  end.
Fixpoint history (f : format) (es : list event) : list step :=
  match es with
  | [] => []
  | e :: es' => match about f e with Some s => s :: history f es' | None => history f es' end
  end.

(** The output in a list of events: format, file (None for standard output),
    what was reported on, and what was written. *)
Definition wrote (es : list event) (f : format) (t : option str) (c : Change_Model.change) (out : res str) : Prop :=
  exists i, i_fmt i = f /\ In (EWrite t i c out) es.
Fixpoint outputs (es : list event) : nat :=
  match es with [] => O | EWrite _ _ _ _ :: es' => S (outputs es') | _ :: es' => outputs es' end.

(** ** Jars *)
(** A class in both jars, with different bytes. *)
Definition class_pair (up : Z -> str) (l r : Zip_Model.archive) (n : str) (d d' : bytes) : Prop :=
  ~ directory n /\ content l n d /\ content r n d' /\ d <> d' /\ class_file n /\ ~ signature up n.

(** ** HTML text *)
(** The text that a reader of HTML sees for markup without tags. *)
Inductive Reads : str -> str -> Prop :=
| reads_end : Reads [] []
| reads_plain c h s : c <> 38 -> c <> 60 -> c <> 62 -> Reads h s -> Reads (c :: h) (c :: s)
| reads_amp h s : Reads h s -> Reads (lit "&amp;" ++ h) (38 :: s)
| reads_lt h s : Reads h s -> Reads (lit "&lt;" ++ h) (60 :: s)
| reads_gt h s : Reads h s -> Reads (lit "&gt;" ++ h) (62 :: s).
(** The target of the first link of the markup: the attribute ends at the quote. *)
Definition first_link (m v : str) : Prop :=
  exists a b, m = a ++ lit "<a href=""" ++ v ++ 34 :: b /\ ~ In 34 v /\ forall p q, a <> p ++ lit "<a" ++ q.
