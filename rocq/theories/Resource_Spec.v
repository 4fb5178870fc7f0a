(** What the pages of a report should be linked to: the style sheets and scripts
    copied, and those given. *)
From Verif Require Import Base Report_Model Report_Spec Html_Model.

(** Links that are not to be changed *)
Definition external (u : str) : Prop := exists p s, In p [lit "http:"; lit "https:"; lit "file:"; lit "/"] /\ u = p ++ s.
Definition has_suffix (x n : str) : Prop := exists b, n = b ++ x.
(** [k] are those of [l] that satisfy [P], in order *)
Inductive selects {A} (P : A -> Prop) : list A -> list A -> Prop :=
| sel_nil : selects P [] []
| sel_yes x l k : P x -> selects P l k -> selects P (x :: l) (x :: k)
| sel_no x l k : ~ P x -> selects P l k -> selects P (x :: l) k.

(** The files copied to the directory [dir] are called [cs] *)
Definition copied_to (H : list str) (dir : str) (names cs : list str) : Prop :=
  forall C, leads H dir C -> Forall2 (fun n c => leads H c (C ++ [n])) names cs.
(** The resources wanted: the names with suffix [x] of the files copied, if any are to
    be, then those given *)
Definition wanted (H : list str) (data : list str) (copy : option str) (x : str) (given us : list str) : Prop :=
  exists names cs, us = cs ++ given /\
    match copy with
    | None | Some [] => cs = []
    | Some dir => selects (has_suffix x) data names /\ copied_to H dir names cs
    end.

(** [d] is [f] or a directory above it *)
Definition upto (d f : list str) : Prop := exists rest, f = d ++ rest.
(** The link [v] on a page in the directory [D], for [u] as seen from the directory
    [H] where the command runs *)
Definition linked (H D : list str) (there may : list str -> Prop) (u v : str) : Prop :=
  (external u -> v = u) /\
  (~ external u -> forall F, leads H u F -> (there F -> leads D v F) /\ (~ may F -> v = u)).

(** One of the files copied *)
Definition a_copy (H data : list str) (copy : option str) (F : list str) : Prop :=
  exists dir C n, copy = Some dir /\ dir <> [] /\ leads H dir C /\ In n data /\ F = C ++ [n].
(** One of the files written as reports *)
Definition a_report (H : list str) (es : list event) (F : list str) : Prop :=
  exists fn i c out, In (EWrite (Some fn) i c out) es /\ leads H fn F.
(** A page in the directory [D], written after the events [es], with the style sheets
    and scripts of [e]: all that are wanted, in order (an empty name is none).
    [styles] and [scripts] are those given, [before] the files there were. *)
Definition nonempty (us ks : list str) : Prop := selects (fun u => u <> []) us ks.
Definition furnished (H D data : list str) (copy : option str) (styles scripts : list str) (before : list str -> Prop) (es : list event) (e : page_env) : Prop :=
  let there F := before F \/ a_copy H data copy F in
  let may F := exists G, upto F G /\ (before F \/ a_copy H data copy G \/ a_report H es G) in
  (exists us ks, wanted H data copy (lit ".css") styles us /\ nonempty us ks /\ Forall2 (linked H D there may) ks (e_styles e)) /\
  (exists us ks, wanted H data copy (lit ".js") scripts us /\ nonempty us ks /\ Forall2 (linked H D there may) ks (e_scripts e)).

(** [es] is made of the lists [ls], each in its order, one event at a time *)
Inductive interleaved {A} : list (list A) -> list A -> Prop :=
| il_done ls : Forall (eq []) ls -> interleaved ls []
| il_take a x l b es : interleaved (a ++ l :: b) es -> interleaved (a ++ (x :: l) :: b) (x :: es).

(** The part of a link that a browser takes for the path *)
Fixpoint path_part (v : str) : str :=
  match v with [] => [] | c :: r => if (c =? 35) || (c =? 63) then [] else c :: path_part r end.

(** What the head of a page refers to *)
Fixpoint head_of (page : list html) : list html :=
  match page with
  | [] => []
  | t :: r => match t with Close n => if seqb n (lit "head") then [] else t :: head_of r | _ => t :: head_of r end
  end.
Definition attribute (a : list (str * str)) (n : str) : option str :=
  match find (fun kv => seqb (fst kv) n) a with Some kv => Some (snd kv) | None => None end.
Definition sheets (page : list html) : list str :=
  flat_map (fun t => match t with Single n a => if seqb n (lit "link") then match attribute a (lit "href") with Some v => [v] | None => [] end else [] | _ => [] end) (head_of page).
Definition scripts (page : list html) : list str :=
  flat_map (fun t => match t with Open n a => if seqb n (lit "script") then match attribute a (lit "src") with Some v => [v] | None => [] end else [] | _ => [] end) (head_of page).
