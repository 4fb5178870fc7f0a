(** Base definitions shared by all models: Python exceptions as values, strings
    and bytes as lists of integers, insertion-ordered dictionaries.

    These definitions model the Python runtime objects the code in /repo uses;
    they do not correspond to lines of /repo themselves. *)

From Coq Require Export String Ascii Bool ZArith List Lia.
From Coq Require Export ZifyBool ZifyNat.
Export ListNotations.
Global Open Scope Z_scope.
Global Open Scope list_scope.

(** Python exceptions.  One constructor per exception class raised by the code
    in /repo/javatools or by the runtime operations it uses.  [OutOfFuel] is not
    a Python exception: it marks exhaustion of the fuel of a bounded model of an
    unbounded loop or recursion, and theorems exclude it. *)
Inductive exn : Type :=
| UnpackException (wanted present : Z)      (* javatools/pack.py:358-373 *)
| ClassUnpackException                      (* javatools/__init__.py:156 *)
| UnknownConstantPoolTag                    (* javatools/__init__.py:164 *)
| Unimplemented                             (* javatools/__init__.py:146 *)
| ManifestKeyException                      (* javatools/manifest.py:74 *)
| MalformedManifest                         (* javatools/manifest.py:82 *)
| UnsupportedDigest                         (* javatools/manifest.py:91-99 *)
| VerificationError                         (* javatools/jarutil.py:47-65, and its subclasses: *)
| SignatureBlockFileVerificationError | ManifestChecksumError
| JarChecksumError | JarSignatureMissingError
| MissingManifestError                      (* javatools/jarutil.py:68 *)
| UnicodeEncodeError
| KeyError | IndexError | TypeError | AttributeError | ValueError
| AssertionError | StructError | StopIteration | RuntimeError
| ZeroDivisionError | UnicodeDecodeError | FileNotFoundError
| OutOfFuel.

(** Result of a Python call: a value or a raised exception. *)
Inductive res (A : Type) : Type :=
| Ok (a : A)
| Err (e : exn).
Arguments Ok {A} a.
Arguments Err {A} e.

Definition rbind {A B} (m : res A) (k : A -> res B) : res B :=
  match m with Ok a => k a | Err e => Err e end.

Notation "x <- m ;; k" := (rbind m (fun x => k))
  (at level 61, m at next level, right associativity).
Notation "' p <- m ;; k" := (rbind m (fun p => k))
  (at level 61, p pattern, m at next level, right associativity).

Definition is_ok {A} (m : res A) : bool :=
  match m with Ok _ => true | Err _ => false end.

(** Python [tuple(f(x) for x in l)]: stops at the first exception. *)
Fixpoint mapM {A B} (f : A -> res B) (l : list A) : res (list B) :=
  match l with
  | [] => Ok []
  | x :: xs => y <- f x ;; ys <- mapM f xs ;; Ok (y :: ys)
  end.

(** Python [bytes] (values 0..255) and [str] (code points). *)
Definition bytes := list Z.
Definition str := list Z.

(** A Coq string literal as a [str] (or ASCII [bytes]). *)
Fixpoint lit (s : String.string) : list Z :=
  match s with
  | EmptyString => []
  | String a s' => Z.of_nat (nat_of_ascii a) :: lit s'
  end.

Definition is_byte (b : Z) : bool := (0 <=? b) && (b <? 256).
Definition all_bytes (l : bytes) : Prop := Forall (fun b => 0 <= b < 256) l.

(** Equality of strings / byte strings. *)
Fixpoint seqb (a b : list Z) : bool :=
  match a, b with
  | [], [] => true
  | x :: a', y :: b' => (x =? y) && seqb a' b'
  | _, _ => false
  end.

Lemma seqb_eq a b : seqb a b = true <-> a = b.
Proof.
  revert b; induction a as [|x a IH]; intros [|y b]; simpl; split; intro H;
    try discriminate; try reflexivity.
  - apply andb_prop in H as [H1 H2]. apply Z.eqb_eq in H1. apply IH in H2. congruence.
  - injection H as -> ->. rewrite Z.eqb_refl. apply IH. reflexivity.
Qed.

Lemma seqb_refl a : seqb a a = true.
Proof. apply seqb_eq; reflexivity. Qed.

Lemma seqb_neq a b : seqb a b = false <-> a <> b.
Proof.
  destruct (seqb a b) eqn:E; split; intro H; try discriminate; try reflexivity.
  - apply seqb_eq in E. contradiction.
  - intro HE. apply seqb_eq in HE. congruence.
Qed.

Lemma seqb_spec a b : reflect (a = b) (seqb a b).
Proof.
  destruct (seqb a b) eqn:E; constructor; [apply seqb_eq | apply seqb_neq]; exact E.
Qed.

Lemma seqb_sym a b : seqb a b = seqb b a.
Proof.
  destruct (seqb_spec a b) as [->|H]; [now rewrite seqb_refl|].
  symmetry. apply seqb_neq. congruence.
Qed.

(** Membership of a string in a list of strings. *)
Definition smem (x : str) (l : list str) : bool := existsb (seqb x) l.

Lemma smem_In x l : smem x l = true <-> In x l.
Proof.
  unfold smem. rewrite existsb_exists. split.
  - intros (y & Hy & E). apply seqb_eq in E. now subst.
  - intro H. exists x. split; [exact H | apply seqb_refl].
Qed.

(** Lexicographic comparison of Python [bytes]/[str]. *)
Fixpoint slt (a b : list Z) : bool :=
  match a, b with
  | [], [] => false
  | [], _ :: _ => true
  | _ :: _, [] => false
  | x :: a', y :: b' => (x <? y) || ((x =? y) && slt a' b')
  end.

Fixpoint sle (a b : list Z) : bool :=
  match a, b with
  | [], _ => true
  | _ :: _, [] => false
  | x :: a', y :: b' => (x <? y) || ((x =? y) && sle a' b')
  end.

(** Slice [l[i:j]] for 0 <= i (natural number bounds). *)
Definition slice {A} (i j : nat) (l : list A) : list A := firstn (j - i) (skipn i l).

(** [s.startswith(p)], [s.endswith(p)] *)
Fixpoint starts_with (p s : list Z) : bool :=
  match p, s with
  | [], _ => true
  | x :: p', y :: s' => (x =? y) && starts_with p' s'
  | _ :: _, [] => false
  end.
Definition ends_with (p s : list Z) : bool := starts_with (rev p) (rev s).

(** Insertion-ordered dictionaries (dict, OrderedDict) with string keys. *)
Definition dict (V : Type) := list (str * V).

Fixpoint dget {V} (d : dict V) (k : str) : option V :=
  match d with
  | [] => None
  | (k', v) :: d' => if seqb k k' then Some v else dget d' k
  end.

(** [d[k] = v]: overwrites in place, appends a new key at the end. *)
Fixpoint dset {V} (d : dict V) (k : str) (v : V) : dict V :=
  match d with
  | [] => [(k, v)]
  | (k', v') :: d' => if seqb k k' then (k', v) :: d' else (k', v') :: dset d' k v
  end.

Definition dkeys {V} (d : dict V) : list str := map fst d.
Definition dhas {V} (d : dict V) (k : str) : bool :=
  match dget d k with Some _ => true | None => false end.

(** [del d[k]] / [d.pop(k)]. *)
Fixpoint ddel {V} (d : dict V) (k : str) : dict V :=
  match d with
  | [] => []
  | (k', v') :: d' => if seqb k k' then d' else (k', v') :: ddel d' k
  end.

Fixpoint concat_with (sep : str) (l : list str) : str :=
  match l with
  | [] => []
  | [x] => x
  | x :: xs => x ++ sep ++ concat_with sep xs
  end.

(** Decimal rendering of a non-negative integer ("%i"). *)
Fixpoint dec_aux (fuel : nat) (n : Z) (acc : str) : str :=
  match fuel with
  | O => acc
  | S f => let acc' := (48 + n mod 10) :: acc in
           if n <? 10 then acc' else dec_aux f (n / 10) acc'
  end.
Definition dec (n : Z) : str :=
  if n <? 0 then 45 :: dec_aux (S (Z.to_nat (Z.log2 (- n)))) (- n) []
  else dec_aux (S (Z.to_nat (Z.log2 n))) n [].
