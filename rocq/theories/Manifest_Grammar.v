(** The format of manifests, from the JAR file specification as far as
    /repo/javatools follows it, independently of the model's parser. *)
From Verif Require Import Base Manifest_Spec.

(** The lines of a text: each ends at a line boundary, or at the end of the text
    if something is left; CR LF is one boundary. *)
Definition unbroken (l : str) : Prop := forall c, In c l -> ~ In c breaks.
Inductive Lines : str -> list str -> Prop :=
| lines_none : Lines [] []
| lines_last l : l <> [] -> unbroken l -> Lines l [l]
| lines_crlf l d ls : unbroken l -> Lines d ls -> Lines (l ++ 13 :: 10 :: d) (l :: ls)
| lines_break l b d ls : unbroken l -> In b breaks -> ~ (b = 13 /\ exists d', d = 10 :: d') -> Lines d ls ->
    Lines (l ++ b :: d) (l :: ls).

(** NUL characters are removed from lines. *)
Inductive Cleaned : str -> str -> Prop :=
| cleaned_nil : Cleaned [] []
| cleaned_nul l l' : Cleaned l l' -> Cleaned (0 :: l) l'
| cleaned_char c l l' : c <> 0 -> Cleaned l l' -> Cleaned (c :: l) (c :: l').

(** A header line with its continuation lines: a name without colon that does
    not start with a space, the colon, one more character (a space, by the JAR
    specification), the value; continuations start with a space. *)
Inductive Item : list str -> str * list str -> Prop :=
| item_lines k sep v conts : ~ In 58 k -> hd 0 k <> 32 -> (length sep = 1%nat \/ (sep = [] /\ v = [])) ->
    Item ((k ++ 58 :: sep ++ v) :: map (cons 32) conts) (k, v :: conts).
(** A section: one header after the other, at least one. *)
Inductive Group : list str -> list (str * list str) -> Prop :=
| group_one ls i : Item ls i -> Group ls [i]
| group_more ls i ls' is : Item ls i -> Group ls' is -> Group (ls ++ ls') (i :: is).
(** Sections are separated by blank lines. *)
Inductive Doc : list str -> list (list (str * list str)) -> Prop :=
| doc_end : Doc [] []
| doc_blank ls secs : Doc ls secs -> Doc ([] :: ls) secs
| doc_last g sec : Group g sec -> Doc g [sec]
| doc_section g sec ls secs : Group g sec -> Doc ls secs -> Doc (g ++ [] :: ls) (sec :: secs).

(** The text has these sections *)
Definition Sections (data : str) (secs : list (list (str * list str))) : Prop :=
  exists ls cs, Lines data ls /\ Forall2 Cleaned ls cs /\ Doc cs secs.

(** The value of an attribute: that of its last occurrence in the section, the
    lines joined; if there is none, the one before. *)
Definition last_value (items : list (str * list str)) (k : str) (before after : option str) : Prop :=
  (exists xs vs ys, items = xs ++ (k, vs) :: ys /\ ~ In k (map fst ys) /\ after = Some (concat vs)) \/
  (~ In k (map fst items) /\ after = before).
(** The name of a section: its Name attribute, or "None" *)
Definition section_name (items : list (str * list str)) (n : str) : Prop :=
  last_value items (lit "Name") (Some (lit "None")) (Some n).
(** The contents of the section called [n] after reading [secs]: those of the last
    section of that name; if there is none, as before. *)
Definition last_section (secs : list (list (str * list str))) (n : str) (before after : option (list (str * str))) : Prop :=
  (exists xs items ys s, secs = xs ++ items :: ys /\ section_name items n /\ (forall it, In it ys -> ~ section_name it n) /\
     after = Some s /\ forall k, last_value items k (if seqb k (lit "Name") then Some (lit "None") else None) (dget s k)) \/
  ((forall it, In it secs -> ~ section_name it n) /\ after = before).
(** Names that fit *)
Definition keys_fit (items : list (str * list str)) : Prop := Forall (fun i => Z.of_nat (length (fst i)) <= 68) items.
