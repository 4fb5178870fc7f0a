(** Specifications for change trees and reports, independent of the algorithms. *)
From Verif Require Import Base Change_Model.

(** ** Grouping by type *)
(** Position of a type in the list of types; those not listed come last. *)
Fixpoint rank (typelist : list str) (t : str) : nat :=
  match typelist with
  | [] => 0
  | x :: l => if seqb t x then 0 else S (rank l t)
  end.
Definition of_type {A} (tyof : A -> str) (t : str) (l : list A) : list A := filter (fun v => seqb (tyof v) t) l.
(** No object comes before one of an earlier type. *)
Definition ordered {A} (tyof : A -> str) (typelist : list str) (l : list A) : Prop :=
  forall i j a b, (i <= j)%nat -> nth_error l i = Some a -> nth_error l j = Some b ->
  (rank typelist (tyof a) <= rank typelist (tyof b))%nat.
(** Objects of one type are next to each other. *)
Definition grouped {A} (tyof : A -> str) (l : list A) : Prop :=
  forall i j k a b c, (i <= j <= k)%nat -> nth_error l i = Some a -> nth_error l j = Some b -> nth_error l k = Some c ->
  tyof a = tyof c -> tyof b = tyof a.

(** ** Verdicts *)
(** A change is real if it is one by its kind, its own comparison says so, or
    one of its parts is real. *)
Inductive real : change -> Prop :=
| real_kind k ch d cs im : k_always k = true -> real (Node k ch d cs im)
| real_given k d cs im : k_check k = CheckNothing -> real (Node k true d cs im)
| real_own k ch d cs im d' : k_check k = CheckOwn (Ok (true, d')) -> real (Node k ch d cs im)
| real_part k ch d cs im ks kid : k_check k = CheckParts -> collect_in (Node k ch d cs im) = Ok ks ->
    In kid ks -> real kid -> real (Node k ch d cs im).

(** The tree of changes reached by collect(). *)
Inductive rose := R (c : change) (subs : list rose).
Inductive unfolds : change -> rose -> Prop :=
| unfolds_node c ks subs : collect c = Ok ks -> (k_super (k_of c) = false -> ks = []) ->
    Forall2 unfolds ks subs -> unfolds c (R c subs).

(** Every change that has parts has a changed part. *)
Inductive founded : rose -> Prop :=
| founded_node c subs : (is_change c = true -> subs <> [] -> exists kid s, In (R kid s) subs /\ is_change kid = true) ->
    Forall founded subs -> founded (R c subs).

Definition top (t : rose) : change := let 'R c _ := t in c.
(** A change that no rule of the options covers, down to some innermost change
    (one without changed parts, or whose parts do not matter for ignoring). *)
Inductive exposed (o : options) : rose -> Prop :=
| exposed_leaf c subs : is_change c = true -> k_own (k_of c) o = false -> k_parts (k_of c) = false \/ Forall (fun s => is_change (top s) = false) subs ->
    exposed o (R c subs)
| exposed_part c subs t : is_change c = true -> k_own (k_of c) o = false -> k_parts (k_of c) = true ->
    In t subs -> exposed o t -> exposed o (R c subs).

(** ** Reports *)
(** All nodes in the order of the tree (parents first), each with its ancestors. *)
Fixpoint chains (t : rose) : list (list change) :=
  let 'R c subs := t in [c] :: concat (map (fun s => map (cons c) (chains s)) subs).

Definition ignored (o : options) (c : change) : bool := match is_ignored o c with Ok b => b | Err _ => false end.
(** Whether the options ask for a node. *)
Definition visible (o : options) (c : change) : bool :=
  if is_change c then negb (ignored o c) || show_ignored o else show_unchanged o.
(** A node is shown when it and all its ancestors are visible. *)
Definition shown (o : options) (ch : list change) : bool := forallb (visible o) ch.

(** The node at the end of a chain. *)
Definition tip (ch : list change) : change :=
  last ch (Node (mkcls [] [] false false false None (fun _ => false) false CheckNothing false false false None None None [] no_data no_data) false None [] []).
(** Whether a change can be described, and its description if so. *)
Definition speaks (c : change) : Prop := exists d, get_description c = Ok d.
Definition said (c : change) : str := match get_description c with Ok d => d | Err _ => [] end.
(** The text report comes to every node whose ancestors are visible, also to
    those it then does not show. *)
Definition visited (o : options) (ch : list change) : bool := shown o (removelast ch).
Definition tellable (o : options) (t : rose) : Prop :=
  forall ch, In ch (chains t) -> visited o ch = true -> speaks (tip ch).

Definition line (o : options) (ch : list change) : str :=
  let c := tip ch in
  concat (repeat (lit "  ") (length ch - 1)) ++ escape (said c) ++
  (if is_change c && ignored o c then lit " [IGNORED]" else []) ++ [10].

(** The objects of a JSON report in order, each with those around it; the
    sub-objects are taken out of each (an object for a composite has none left). *)
Definition jhead (j : json) : json :=
  let 'J n chg d lb ig ad rm e og old new subs := j in J n chg d lb ig ad rm e og old new (match subs with Some _ => Some [] | None => None end).
Fixpoint jchains (j : json) : list (list json) :=
  let 'J _ _ _ _ _ _ _ _ _ _ _ subs := j in
  [jhead j] :: match subs with Some l => concat (map (fun s => map (cons (jhead j)) (jchains s)) l) | None => [] end.
(** What the JSON report is to say of a change. *)
Definition kept {A} (m : res (option A)) : option A := match m with Ok x => x | Err _ => None end.
Definition jnode (o : options) (c : change) : json :=
  let k := k_of c in
  J (k_name k) (is_change c) (said c) (k_label k) (ignored o c) (k_addition k) (k_removal k)
    (match k_entry k with Some [] => None | e => e end) (k_orig k) (kept (k_old k)) (kept (k_new k))
    (if k_super k then Some [] else None).
(** A change whose description and data can be had. *)
Definition recordable (c : change) : Prop :=
  speaks c /\ (exists x, k_old (k_of c) = Ok x) /\ (exists x, k_new (k_of c) = Ok x).
Definition storable (o : options) (t : rose) : Prop :=
  forall ch, In ch (chains t) -> shown o (tl ch) = true -> recordable (tip ch).
