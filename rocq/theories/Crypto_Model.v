(** Model of the verification callback and of the recognition of key types in
    /repo/javatools/crypto.py.  What M2Crypto and OpenSSL do around the two is
    not in /repo; the parts needed are modelled here as their documentation and
    sources describe them, and are marked as such. *)
From Verif Require Import Base Manifest_Model.

(** ** Certificates *)

(** The bits of the keyUsage extension, in the order of RFC 5280 and of the
    table of OpenSSL that prints them (used at crypto.py:172-174) *)
Inductive usage :=
| DigitalSignature | NonRepudiation | KeyEncipherment | DataEncipherment | KeyAgreement
| KeyCertSign | CRLSign | EncipherOnly | DecipherOnly.
Definition all_usages : list usage :=
  [DigitalSignature; NonRepudiation; KeyEncipherment; DataEncipherment; KeyAgreement;
   KeyCertSign; CRLSign; EncipherOnly; DecipherOnly].
Definition usage_eqb (a b : usage) : bool :=
  match a, b with
  | DigitalSignature, DigitalSignature | NonRepudiation, NonRepudiation | KeyEncipherment, KeyEncipherment
  | DataEncipherment, DataEncipherment | KeyAgreement, KeyAgreement | KeyCertSign, KeyCertSign
  | CRLSign, CRLSign | EncipherOnly, EncipherOnly | DecipherOnly, DecipherOnly => true
  | _, _ => false
  end.
(** Extended key usages that matter, and the bits of nsCertType (OpenSSL's
    purpose check, invoked below crypto.py:213) *)
Inductive purpose := EmailProtection | CodeSigning | ServerAuth | ClientAuth | TimeStamping.
Inductive nstype := NsSslClient | NsSslServer | NsSmime | NsObjectSigning | NsCa.
(** The extensions of a certificate that the callback (crypto.py:148-182) and the
    purpose check before it look at; None when the extension is absent. *)
Record cert := mkcert { x_usage : option (list usage); x_extended : option (list purpose); x_nstype : option (list nstype) }.

(** The long names with which OpenSSL prints the bits of keyUsage;
    X509_Extension.get_value of M2Crypto, called at crypto.py:172, returns what
    X509V3_EXT_print writes: the long names, separated by ", " *)
Definition long_name (u : usage) : str :=
  match u with
  | DigitalSignature => lit "Digital Signature"
  | NonRepudiation => lit "Non Repudiation"
  | KeyEncipherment => lit "Key Encipherment"
  | DataEncipherment => lit "Data Encipherment"
  | KeyAgreement => lit "Key Agreement"
  | KeyCertSign => lit "Certificate Sign"
  | CRLSign => lit "CRL Sign"
  | EncipherOnly => lit "Encipher Only"
  | DecipherOnly => lit "Decipher Only"
  end.
(** [cert.get_ext('keyUsage').get_value()], crypto.py:172 *)
Definition usage_value (us : list usage) : str :=
  concat_with (lit ", ") (map long_name (filter (fun u => existsb (usage_eqb u) us) all_usages)).

(** ** The callback *)

(** Verification errors: X509_V_ERR_INVALID_PURPOSE, and all others (crypto.py:160) *)
Inductive verr := InvalidPurpose | OtherError (code : Z).
(** What the context of a callback tells: get_error, get_error_depth,
    get_current_cert (crypto.py:159, 165, 170) *)
Record vctx := mkctx { v_err : verr; v_depth : Z; v_cert : cert }.

(** ignore_missing_email_protection_eku_cb, crypto.py:148-182; [ok] is 0 or 1 *)
Definition verify_cb (ok : Z) (x : vctx) : Z :=
  match v_err x with
  | OtherError _ => ok
  | InvalidPurpose =>
      if v_depth x >? 0 then ok
      else
        match x_usage (v_cert x) with
        | Some us =>
            let key_usage := usage_value us in
            if negb (contains (lit "digitalSignature") key_usage) && negb (contains (lit "nonRepudiation") key_usage)
            then ok else 1
        | None => 1
        end
  end.

(** X509_verify_cert of OpenSSL with a callback, reached from smime.verify
    (crypto.py:213): each problem found is put to the callback with ok = 0, and
    verification goes on if that returns true. *)
Definition chain_accepted (problems : list vctx) : bool := forallb (fun x => negb (verify_cb 0 x =? 0)) problems.

(** ** Key types *)
Section Keys.
Variable key : Type.
(** load_key of M2Crypto's RSA, DSA and EC: the exception raised, if any.
    [None] is success, [Some true] one of the exceptions caught at crypto.py:89,
    [Some false] another one. *)
Variable load_rsa load_dsa load_ec : key -> option bool.

(** The loop of private_key_type, crypto.py:86-94; CannotFindKeyTypeError is
    shown as RuntimeError, an exception that is not caught as ValueError *)
Fixpoint key_loop (types : list (str * (key -> option bool))) (k : key) : res str :=
  match types with
  | [] => Err RuntimeError
  | (name, load) :: rest =>
      match load k with
      | None => Ok name
      | Some true => key_loop rest k
      | Some false => Err ValueError
      end
  end.
(** private_key_type, crypto.py:74-94 *)
Definition private_key_type (k : key) : res str :=
  key_loop [(lit "RSA", load_rsa); (lit "DSA", load_dsa); (lit "EC", load_ec)] k.
End Keys.
