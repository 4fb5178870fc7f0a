(** Specification of the constant pool, written from the JVM specification
    (JVMS 4.4), independently of the parser. *)
From Verif Require Import Base Pack_Model Pack_Spec ConstPool_Model.

(** Modified UTF-8 (JVMS 4.4.7) of one character of the basic multilingual plane. *)
Definition mutf8_char (c : Z) : bytes :=
  if c =? 0 then [192; 128]
  else if c <? 128 then [c]
  else if c <? 2048 then [192 + c / 64; 128 + c mod 64]
  else [224 + c / 4096; 128 + (c / 64) mod 64; 128 + c mod 64].
Definition mutf8 (s : str) : bytes := concat (map mutf8_char s).
Definition bmp_char (c : Z) : bool :=
  (0 <=? c) && (c <? 65536) && negb ((55296 <=? c) && (c <? 57344)).

(** A supplementary character is encoded as its two surrogates, three bytes each. *)
Definition surrogate_bytes (u : Z) : bytes :=
  [224 + u / 4096; 128 + (u / 64) mod 64; 128 + u mod 64].
Definition mutf8_supp (c : Z) : bytes :=
  surrogate_bytes (55296 + (c - 65536) / 1024) ++ surrogate_bytes (56320 + (c - 65536) mod 1024).

(** Constants. *)
Inductive jconst :=
| JUtf8 (s : str) | JInteger (z : Z) | JFloat (bits : Z) | JLong (z : Z) | JDouble (bits : Z)
| JClass (i : Z) | JString (i : Z) | JFieldref (a b : Z) | JMethodref (a b : Z)
| JInterfaceMethodref (a b : Z) | JNameAndType (a b : Z) | JModuleId (a b : Z)
| JMethodHandle (k i : Z) | JMethodType (i : Z) | JDynamic (a b : Z) | JInvokeDynamic (a b : Z)
| JModule (i : Z) | JPackage (i : Z).

Definition u2 (v : Z) : bool := field_ok cH v.
Definition jconst_ok (c : jconst) : bool :=
  match c with
  | JUtf8 s => forallb bmp_char s && (Z.of_nat (length (mutf8 s)) <? 65536)
  | JInteger z => field_ok ci z
  | JFloat b => field_ok cf b
  | JLong z => field_ok cq z
  | JDouble b => field_ok cd b
  | JClass i | JString i | JMethodType i | JModule i | JPackage i => u2 i
  | JFieldref a b | JMethodref a b | JInterfaceMethodref a b | JNameAndType a b
  | JModuleId a b | JDynamic a b | JInvokeDynamic a b => u2 a && u2 b
  | JMethodHandle k i => field_ok cB k && u2 i
  end.

Definition e2 (v : Z) : bytes := enc_field cH v.
Definition enc_const (c : jconst) : bytes :=
  match c with
  | JUtf8 s => 1 :: e2 (Z.of_nat (length (mutf8 s))) ++ mutf8 s
  | JInteger z => 3 :: enc_field ci z
  | JFloat b => 4 :: enc_field cf b
  | JLong z => 5 :: enc_field cq z
  | JDouble b => 6 :: enc_field cd b
  | JClass i => 7 :: e2 i
  | JString i => 8 :: e2 i
  | JFieldref a b => 9 :: e2 a ++ e2 b
  | JMethodref a b => 10 :: e2 a ++ e2 b
  | JInterfaceMethodref a b => 11 :: e2 a ++ e2 b
  | JNameAndType a b => 12 :: e2 a ++ e2 b
  | JModuleId a b => 13 :: e2 a ++ e2 b
  | JMethodHandle k i => 15 :: k :: e2 i
  | JMethodType i => 16 :: e2 i
  | JDynamic a b => 17 :: e2 a ++ e2 b
  | JInvokeDynamic a b => 18 :: e2 a ++ e2 b
  | JModule i => 19 :: e2 i
  | JPackage i => 20 :: e2 i
  end.

(** Long and Double occupy two indices. *)
Definition jwide (c : jconst) : bool := match c with JLong _ | JDouble _ => true | _ => false end.
Definition jwidth (c : jconst) : Z := if jwide c then 2 else 1.
Fixpoint jslots (l : list jconst) : Z :=
  match l with [] => 0 | c :: l' => jwidth c + jslots l' end.
Definition enc_pool (l : list jconst) : bytes := e2 (1 + jslots l) ++ concat (map enc_const l).
Definition jpool_ok (l : list jconst) : bool := forallb jconst_ok l && (1 + jslots l <? 65536).

(** The constant at an index; [None] for index 0, the second index of a wide
    entry, and indices past the end. *)
Fixpoint jat_from (l : list jconst) (base i : Z) : option jconst :=
  match l with
  | [] => None
  | c :: l' => if i =? base then Some c else jat_from l' (base + jwidth c) i
  end.
Definition jat (l : list jconst) (i : Z) : option jconst := jat_from l 1 i.

(** What get_const shows for a constant: its tag and raw value. *)
Definition shown_const (c : jconst) : const :=
  match c with
  | JUtf8 s => KUtf8 s | JInteger z => KInt z | JFloat b => KFloat b | JLong z => KLong z
  | JDouble b => KDouble b
  | JClass i => KRef 7 i | JString i => KRef 8 i | JMethodType i => KRef 16 i
  | JModule i => KRef 19 i | JPackage i => KRef 20 i
  | JFieldref a b => KRef2 9 a b | JMethodref a b => KRef2 10 a b
  | JInterfaceMethodref a b => KRef2 11 a b | JNameAndType a b => KRef2 12 a b
  | JModuleId a b => KRef2 13 a b | JDynamic a b => KRef2 17 a b | JInvokeDynamic a b => KRef2 18 a b
  | JMethodHandle k i => KHandle k i
  end.

(** A pool object shows a constant pool: every index shows its constant, index 0
    and second halves of wide entries are empty, indices past the end raise. *)
Definition pool_shows (l : list jconst) (p : pool) : Prop :=
  Z.of_nat (length p) = 1 + jslots l /\
  forall i, 0 <= i -> get_const p i =
    match jat l i with
    | Some c => Ok (shown_const c)
    | None => if i <? 1 + jslots l then Ok KNone else Err IndexError
    end.

(** ** Dereferencing *)

(** Big-step meaning of dereferencing, with no bound on the recursion. *)
Inductive derefs (p : pool) : Z -> pyval -> Prop :=
| d_utf8 i s : i <> 0 -> get_const p i = Ok (KUtf8 s) -> derefs p i (PStr s)
| d_int i z : i <> 0 -> get_const p i = Ok (KInt z) -> derefs p i (PInt z)
| d_long i z : i <> 0 -> get_const p i = Ok (KLong z) -> derefs p i (PInt z)
| d_float i b : i <> 0 -> get_const p i = Ok (KFloat b) -> derefs p i (PF32 b)
| d_double i b : i <> 0 -> get_const p i = Ok (KDouble b) -> derefs p i (PF64 b)
| d_ref i t j v : i <> 0 -> get_const p i = Ok (KRef t j) -> derefs p j v -> derefs p i v
| d_ref2 i t a b va vb : i <> 0 -> get_const p i = Ok (KRef2 t a b) -> t <> 17 -> t <> 18 ->
    derefs p a va -> derefs p b vb -> derefs p i (PPair va vb)
| d_dyn i t a b vb : i <> 0 -> get_const p i = Ok (KRef2 t a b) -> (t = 17 \/ t = 18) ->
    derefs p b vb -> derefs p i (PPair (PInt a) vb)
| d_handle i k j v : i <> 0 -> get_const p i = Ok (KHandle k j) -> derefs p j v ->
    derefs p i (PPair (PInt k) v).

(** [refers p i j]: the entry at [i] refers to the entry at [j]. *)
Definition refers (p : pool) (i j : Z) : Prop :=
  i <> 0 /\
  ((exists t, get_const p i = Ok (KRef t j)) \/
   (exists t a b, get_const p i = Ok (KRef2 t a b) /\ (j = b \/ (j = a /\ t <> 17 /\ t <> 18))) \/
   (exists k, get_const p i = Ok (KHandle k j))).
Inductive reaches (p : pool) : Z -> Z -> Prop :=
| reaches_refl i : reaches p i i
| reaches_step i j k : refers p i j -> reaches p j k -> reaches p i k.
Definition on_cycle (p : pool) (i : Z) : Prop := exists j, refers p i j /\ reaches p j i.

(** Well-formed pools (JVMS 4.4): each reference has an entry of the right kind.
    [jresolve] is the value the JVM specification gives an entry; [None] if a
    reference is not of the right kind. *)
Definition jutf8_at (l : list jconst) (i : Z) : option str :=
  match jat l i with Some (JUtf8 s) => Some s | _ => None end.
Definition jclass_at (l : list jconst) (i : Z) : option str :=
  match jat l i with Some (JClass j) => jutf8_at l j | _ => None end.
Definition jnt_at (l : list jconst) (i : Z) : option (str * str) :=
  match jat l i with
  | Some (JNameAndType a b) =>
      match jutf8_at l a, jutf8_at l b with Some x, Some y => Some (x, y) | _, _ => None end
  | _ => None
  end.
Definition pstr2 (x y : str) : pyval := PPair (PStr x) (PStr y).
Definition jmember_val (l : list jconst) (a b : Z) : option pyval :=
  match jclass_at l a, jnt_at l b with
  | Some c, Some (n, t) => Some (PPair (PStr c) (pstr2 n t))
  | _, _ => None
  end.
Definition jresolve (l : list jconst) (c : jconst) : option pyval :=
  match c with
  | JUtf8 s => Some (PStr s)
  | JInteger z | JLong z => Some (PInt z)
  | JFloat b => Some (PF32 b)
  | JDouble b => Some (PF64 b)
  | JClass i | JString i | JMethodType i | JModule i | JPackage i =>
      option_map PStr (jutf8_at l i)
  | JFieldref a b | JMethodref a b | JInterfaceMethodref a b => jmember_val l a b
  | JNameAndType a b | JModuleId a b =>
      match jutf8_at l a, jutf8_at l b with Some x, Some y => Some (pstr2 x y) | _, _ => None end
  | JMethodHandle k i =>
      match jat l i with
      | Some (JFieldref a b) | Some (JMethodref a b) | Some (JInterfaceMethodref a b) =>
          option_map (PPair (PInt k)) (jmember_val l a b)
      | _ => None
      end
  | JDynamic a b | JInvokeDynamic a b =>
      match jnt_at l b with Some (n, t) => Some (PPair (PInt a) (pstr2 n t)) | None => None end
  end.
Definition jpool_wf (l : list jconst) : bool :=
  jpool_ok l && forallb (fun c => match jresolve l c with Some _ => true | None => false end) l.
