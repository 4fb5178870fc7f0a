(** When a certificate may be used to sign, stated apart from the callback: the
    rules of OpenSSL for the purpose "S/MIME signing", and those rules without
    the one about extended key usage, which is what the documentation of the
    callback promises. *)
From Verif Require Import Base.
From Verif Require Import Crypto_Model.

(** The key may make signatures: keyUsage absent, or with one of the two bits *)
Definition usage_allows (c : cert) : Prop :=
  match x_usage c with None => True | Some us => In DigitalSignature us \/ In NonRepudiation us end.
(** Extended key usage absent, or with e-mail protection *)
Definition extended_allows (c : cert) : Prop :=
  match x_extended c with None => True | Some ps => In EmailProtection ps end.
(** Netscape certificate type absent, or with S/MIME or SSL client *)
Definition nstype_allows (c : cert) : Prop :=
  match x_nstype c with None => True | Some ts => In NsSmime ts \/ In NsSslClient ts end.
(** Accepted by OpenSSL for S/MIME signing (purpose_smime, check_purpose_smime_sign) *)
Definition smime_purpose (c : cert) : Prop := usage_allows c /\ extended_allows c /\ nstype_allows c.

(** A problem as verification really reports it: an invalid purpose at the
    signing certificate means that it does not pass the check for S/MIME *)
Definition reported_truly (x : vctx) : Prop :=
  v_err x = InvalidPurpose -> v_depth x = 0 -> ~ smime_purpose (v_cert x).
(** The one problem that is to be passed over: at the signing certificate, and
    only its extended key usage is in the way *)
Definition only_email_missing (x : vctx) : Prop :=
  v_err x = InvalidPurpose /\ v_depth x = 0 /\ usage_allows (v_cert x) /\ nstype_allows (v_cert x) /\ ~ extended_allows (v_cert x).
