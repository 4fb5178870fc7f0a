(** Specification of the tables of annotations on the page of a class comparison. *)
From Verif Require Import Base Pack_Model ConstPool_Model ConstPool_Spec ClassFile_Model ClassFile_Spec Descr_Spec Anno_Spec Classdiff_Model Classdiff_Spec Html_Model Html_Spec Verbose_Spec.

(** An annotation as a reader knows it: whether it has elements, its text, its meaning *)
Record seen := mkseen { sn_full : bool; sn_text : str; sn_means : rval }.
Inductive seen_as (l : list jconst) : Z * list (Z * jval) -> seen -> Prop :=
| sa_intro a t m : janno_ok l a = true -> anno_text l a t -> jmeaning l (VAnno (fst a) (snd a)) = Some m ->
    seen_as l a (mkseen (match snd a with [] => false | _ => true end) t m).
(** The annotations in the attribute [name] *)
Definition carries (l : list jconst) (al : list jattr) (name : str) (vs : list seen) : Prop :=
  (last_named l al name = None /\ vs = []) \/
  (exists annos, last_named l al name = Some (enc_annos annos) /\ short_list annos = true /\ Forall2 (seen_as l) annos vs).
(** Same number, and pairwise of one meaning *)
Definition same_seen (vs ws : list seen) : Prop := Forall2 (fun v w => req (sn_means v) (sn_means w)) vs ws.

(** What carries annotations: the classes, and each pair of fields or methods compared *)
Inductive compared (fmt : pyval -> str) (l r : classinfo) : String.string -> attrs -> attrs -> Prop :=
| cmp_class : compared fmt l r "Class" (c_attrs l) (c_attrs r)
| cmp_field a b : distinct_ids fmt (c_pool l) (c_fields l) -> distinct_ids fmt (c_pool r) (c_fields r) ->
    In a (c_fields l) -> In b (c_fields r) -> same_identity fmt (c_pool l) (c_pool r) a b ->
    compared fmt l r "Field" (m_attrs a) (m_attrs b)
| cmp_method a b : distinct_ids fmt (c_pool l) (c_methods l) -> distinct_ids fmt (c_pool r) (c_methods r) ->
    In a (c_methods l) -> In b (c_methods r) -> same_identity fmt (c_pool l) (c_pool r) a b ->
    compared fmt l r "Method" (m_attrs a) (m_attrs b).
Definition attr_name (visible : bool) : str := if visible then lit "RuntimeVisibleAnnotations" else lit "RuntimeInvisibleAnnotations".

(** A part of the page with a state and a title, the only one in it *)
Definition titled_part (page part : list html) (state title : str) : Prop :=
  within part page /\
  exists body, part = Open (lit "div") [(lit "class", state)] :: Open (lit "div") [(lit "class", lit "description")] :: Chars title :: Close (lit "div") ::
    body ++ [Close (lit "div")] /\
    existsb (fun t => match t with Open _ a => existsb (fun x => seqb (snd x) (lit "description")) a | _ => false end) body = false.
Definition part_title (kind : String.string) (visible : bool) : str :=
  lit kind ++ (if visible then lit " runtime annotations" else lit " runtime invisible annotations").
Definition part_state (kind : String.string) (visible changed : bool) : str :=
  lit "Change " ++ lit kind ++ (if visible then lit "AnnotationsChange" else lit "InvisibleAnnotationsChange") ++
  (if changed then lit " is_changed" else lit " is_unchanged").

(** Unchanged: index and text *)
Definition alone_grid (vs : list seen) : list (list str) :=
  map lit ["Index"; "Annotation"]%string :: map (fun i => [dec (Z.of_nat i); match nth_error vs i with Some v => sn_text v | None => [] end]) (seq 0 (length vs)).
(** Changed: index, text on the left, text on the right.  The tool shows nothing for an
    annotation without elements. *)
Definition side_text (vs : list seen) (i : nat) : str := match nth_error vs i with Some v => if sn_full v then sn_text v else [] | None => [] end.
Definition both_grid (vs ws : list seen) : list (list str) :=
  map lit ["Index"; "Annotation"; "Annotation"]%string :: map lit ["Index"; "Original"; "Changed"]%string ::
  map (fun i => [dec (Z.of_nat i); side_text vs i; side_text ws i]) (seq 0 (Nat.max (length vs) (length ws))).
(** Row [i] is marked *)
Definition marks_row (part : list html) (i : nat) (old new : str) (changed : bool) : Prop :=
  within [Open (lit "tr") []; Open (lit "td") [(lit "class", lit "const-index")]; Chars (dec (Z.of_nat i)); Close (lit "td");
          Open (lit "td") [(lit "class", lit "const-value")]; Chars old; Close (lit "td");
          Open (lit "td") [(lit "class", if changed then lit "const-value is_changed" else lit "const-value is_unchanged")]; Chars new; Close (lit "td");
          Close (lit "tr")] part.
Definition same_at (vs ws : list seen) (i : nat) : Prop :=
  match nth_error vs i, nth_error ws i with Some v, Some w => req (sn_means v) (sn_means w) | _, _ => False end.
