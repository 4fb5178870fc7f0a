(** Specification of signed jars, written from the JAR file specification,
    independently of the model's helpers. *)
From Verif Require Import Base Manifest_Model Manifest_Spec Sign_Model.

(** The supported digest algorithms. *)
Definition algs : list str := [lit "MD5"; lit "SHA1"; lit "SHA-256"; lit "SHA-384"; lit "SHA-512"].

(** [holds z f b]: reading entry [f] of the archive gives [b] (its last entry). *)
Definition holds (z : zip) (f : str) (b : bytes) : Prop :=
  exists z1 z2, z = z1 ++ (f, b) :: z2 /\ ~ In f (map fst z2).

(** [vouched hash s b]: some digest recorded in the section is that of [b]. *)
Definition vouched (hash : str -> bytes -> str) (s : section) (b : bytes) : Prop :=
  exists A, In A algs /\ dget s (A ++ lit "-Digest") = Some (hash A b).
(** Every digest attribute of the section is of a supported algorithm. *)
Definition digests_supported (s : section) : Prop :=
  forall x, In (x ++ lit "-Digest") (dkeys s) -> In x algs.

(** Upper case, character by character; [up] is the Unicode mapping, of which we
    only need its values on ASCII and that it is idempotent. *)
Definition uppercase (up : Z -> str) (s : str) : str := concat (map up s).
Definition up1 (c : Z) : Z := if (97 <=? c) && (c <=? 122) then c - 32 else c.
Definition upper_ok (up : Z -> str) : Prop :=
  (forall c, 0 <= c <= 127 -> up c = [up1 c]) /\ (forall c, uppercase up (up c) = up c).

(** Names that need no checksum, in upper case: the manifest, directories, and
    signature files and blocks directly in META-INF/. *)
Definition sig_related (u : str) : Prop :=
  u = lit "META-INF/MANIFEST.MF" \/ (exists x, u = x ++ [47]) \/
  exists x, u = lit "META-INF/" ++ x /\ ~ In 47 x /\
    ((exists y, x = y ++ lit ".SF") \/ (exists y, x = y ++ lit ".RSA") \/ (exists y, x = y ++ lit ".DSA") \/
     (exists y, x = y ++ lit ".EC") \/ (exists y, x = lit "SIG-" ++ y)).

(** [picks Q l r]: r is the list of the elements of l with Q, in order. *)
Inductive picks {A} (Q : A -> Prop) : list A -> list A -> Prop :=
| picks_nil : picks Q [] []
| picks_in a l r : Q a -> picks Q l r -> picks Q (a :: l) (a :: r)
| picks_out a l r : ~ Q a -> picks Q l r -> picks Q (a :: l) r.

(** The name of a section is the value of its Name attribute; names are distinct. *)
Definition well_named (m : manifest) : Prop :=
  NoDup (map fst (m_subs m)) /\ Forall (fun ns => dget (snd ns) (lit "Name") = Some (fst ns)) (m_subs m).

(** Attributes as they come out of the parser: no line breaks, no colon in the
    name, which does not start with a space. *)
Definition text_item (kv : str * str) : Prop :=
  forallb plain (fst kv) = true /\ forallb plain (snd kv) = true /\ ~ In 58 (fst kv) /\
  (forall k, fst kv <> 32 :: k).
Definition text_manifest (m : manifest) : Prop :=
  Forall text_item (m_main m) /\ Forall (fun ns => Forall text_item (snd ns)) (m_subs m).

(** Two different texts with the same digest. *)
Definition collision (hash : str -> bytes -> str) : Prop :=
  exists A x y, In A algs /\ x <> y /\ hash A x = hash A y.

(** Digests are base64 text. *)
Definition hash_text (hash : str -> bytes -> str) : Prop :=
  forall A b, val_ok (hash A b) = true /\ ascii (hash A b) = true.
Definition zip_bytes (z : zip) : Prop := Forall (fun e => all_bytes (snd e)) z.
(** The line separator of a manifest is unset or one of the two usual ones. *)
Definition usual_linesep (m : manifest) : Prop :=
  m_linesep m = None \/ m_linesep m = Some lf \/ m_linesep m = Some crlf.
