(** Model of the digest, signing and verification code of
    /repo/javatools/manifest.py and /repo/javatools/jarutil.py. *)
From Verif Require Import Base Pack_Model ConstPool_Model Manifest_Model.

(** ** Digest names *)

(** JAVA_TO_OPENSSL_DIGESTS, manifest.py:91-124, on a hashlib without md2. *)
Definition java_digests : list str :=
  [lit "MD5"; lit "SHA1"; lit "SHA-256"; lit "SHA-384"; lit "SHA-512"].

Definition SUF : str := lit "-Digest".
Definition SUF_ALL : str := lit "-Digest-Manifest".
Definition SUF_MAIN : str := lit "-Digest-Manifest-Main-Attributes".
Definition MANIFEST_NAME : str := lit "META-INF/MANIFEST.MF".

(** ManifestSection.primary, manifest.py:259-264, for sub-sections.
    Simplification: a section whose Name was deleted is not modelled. *)
Definition primary (s : section) : res str :=
  match dget s K_Name with Some n => Ok n | None => Err Unimplemented end.

(** ** Archives *)

(** zipfile.ZipFile: entries in the order of namelist(); names may repeat and
    read(name) returns the last entry of that name (runtime behaviour).
    Simplification: compression and the other entry attributes are not modelled;
    names come back from an archive as they were written. *)
Definition zip := list (str * bytes).
Definition namelist (z : zip) : list str := map fst z.
Definition zread (z : zip) (name : str) : res bytes :=
  match dget (rev z) name with Some b => Ok b | None => Err KeyError end.

Section Env.
(** str.upper() of one character (one or more characters) *)
Variable up : Z -> str.
(** base64 text of the digest of data with the algorithm of the given Java name:
    b64_encoded_digest(data, _get_digest(name)), manifest.py:672-693 *)
Variable hash : str -> bytes -> str.

(** s.upper() *)
Definition upper (s : str) : str := concat (map up s).

(** _get_digest, manifest.py:103-110, followed by b64_encoded_digest *)
Definition digest_of (name : str) (data : bytes) : res str :=
  if smem name java_digests then Ok (hash name data) else Err UnsupportedDigest.

(** _in_sig_related_dir, manifest.py:878-880 *)
Definition in_sig_related_dir (f : str) : bool :=
  match split_on 47 [] f with
  | [d; _] => seqb d (lit "META-INF")
  | _ => false
  end.
(** file_matches_sigfile, manifest.py:883-885, with SIG_FILE_PATTERN (64) *)
Definition file_matches_sigfile (f : str) : bool :=
  in_sig_related_dir f && fnmatches (upper f) [lit "*.SF"].
(** file_matches_sigblock, manifest.py:888-890, with SIG_BLOCK_PATTERNS (65) *)
Definition file_matches_sigblock (f : str) : bool :=
  in_sig_related_dir f &&
  fnmatches (upper (skipn 9 f)) [lit "*.RSA"; lit "*.DSA"; lit "*.EC"; lit "SIG-*"].
(** file_skips_verification, manifest.py:893-900 *)
Definition file_skips_verification (f0 : str) : bool :=
  let f := upper f0 in
  seqb f MANIFEST_NAME || ends_with [47] f || file_matches_sigblock f || file_matches_sigfile f.

(** ** Checksums of the entries *)

(** The loop [for java_digest in digests], manifest.py:453-462 (and 617-624, 559-566,
    578-585): true when a match was found and the loop left by break or return.
    [data] is the value that each iteration computes first. *)
Fixpoint some_match (s : section) (suffix : str) (data : res bytes) (digests : list str) : res bool :=
  match digests with
  | [] => Ok false
  | j :: digests' =>
      b <- data ;;
      d <- digest_of j b ;;
      match dget s (j ++ suffix) with
      | Some v => if seqb d v then Ok true else some_match s suffix data digests'
      | None => some_match s suffix data digests'
      end
  end.
Definition empty {A} (l : list A) : bool := match l with [] => true | _ => false end.

(** Manifest.verify_jar_checksums, manifest.py:433-467: the failures and the
    manifest afterwards (create_section adds missing sections).  The else clause
    of the inner loop also runs when there was nothing to loop over. *)
Fixpoint verify_entries (m : manifest) (z : zip) (strict : bool) (names : list str)
  : res (list str * manifest) :=
  match names with
  | [] => Ok ([], m)
  | f :: names' =>
      if file_skips_verification f then verify_entries m z strict names'
      else
        let '(s, m1) := get_or_create_section m f in
        let digests := keys_with_suffix s SUF in
        if empty digests && strict then
          '(l, m2) <- verify_entries m1 z strict names' ;; Ok (f :: l, m2)
        else
          ok <- some_match s SUF (zread z f) digests ;;
          '(l, m2) <- verify_entries m1 z strict names' ;;
          Ok (if ok then l else f :: l, m2)
  end.
Definition verify_jar_checksums (m : manifest) (z : zip) (strict : bool) : res (list str * manifest) :=
  verify_entries m z strict (namelist z).

(** Assignment to an attribute of a sub-section held by the manifest. *)
Definition set_in_section (m : manifest) (name k v : str) : res manifest :=
  match dget (m_subs m) name with
  | Some s => s' <- sec_set s k v ;;
              Ok (mkman (m_primary_key m) (m_main m) (dset (m_subs m) name s') (m_linesep m))
  | None => Err KeyError
  end.
(** Assignment to a main attribute. *)
Definition set_main (m : manifest) (k v : str) : res manifest :=
  s' <- sec_set (m_main m) k v ;; Ok (mkman (m_primary_key m) s' (m_subs m) (m_linesep m)).

(** Manifest.add_jar_entries, manifest.py:470-488 *)
Fixpoint add_entries (m : manifest) (z : zip) (alg : str) (names : list str) : res manifest :=
  match names with
  | [] => Ok m
  | f :: names' =>
      if file_skips_verification f then add_entries m z alg names'
      else
        let '(_, m1) := create_section m f in
        data <- zread z f ;;
        d <- digest_of alg data ;;
        m2 <- set_in_section m1 f (alg ++ SUF) d ;;
        add_entries m2 z alg names'
  end.
Definition add_jar_entries (m : manifest) (z : zip) (alg : str) : res manifest :=
  if smem alg java_digests then add_entries m z alg (namelist z) else Err UnsupportedDigest.

(** ** Signature files *)

(** SignatureManifest.digest_manifest, manifest.py:518-544: the loop over the
    sub-sections; [accum] is the data digested so far *)
Fixpoint digest_sections (sf : manifest) (alg ls : str) (accum : bytes) (secs : list section)
  : res (manifest * bytes) :=
  match secs with
  | [] => Ok (sf, accum)
  | s :: secs' =>
      d <- sec_data s (Some ls) ;;
      n <- primary s ;;
      let '(_, sf1) := create_section sf n in
      sf2 <- set_in_section sf1 n (alg ++ SUF) (hash alg d) ;;
      digest_sections sf2 alg ls (accum ++ d) secs'
  end.
Definition digest_manifest (sf mf : manifest) (alg : str) : res manifest :=
  let ls := or_linesep (m_linesep mf) os_linesep in
  if negb (smem alg java_digests) then Err UnsupportedDigest
  else
    accum <- get_main_section mf None ;;
    sf1 <- set_main sf (alg ++ SUF_MAIN) (hash alg accum) ;;
    '(sf2, all) <- digest_sections sf1 alg ls accum (map snd (m_subs mf)) ;;
    set_main sf2 (alg ++ SUF_ALL) (hash alg all).

(** SignatureManifest.verify_manifest_main_checksum, manifest.py:547-568 *)
Definition verify_manifest_main_checksum (sf mf : manifest) : res bool :=
  some_match (m_main sf) SUF_ALL (man_data mf None) (keys_with_suffix (m_main sf) SUF_ALL).
(** SignatureManifest.verify_manifest_main_attributes_checksum, manifest.py:571-587 *)
Definition verify_manifest_main_attributes_checksum (sf mf : manifest) : res bool :=
  some_match (m_main sf) SUF_MAIN (get_main_section mf None) (keys_with_suffix (m_main sf) SUF_MAIN).

(** SignatureManifest.verify_manifest_entry_checksums, manifest.py:590-629: the
    digest names come from the manifest's section, the values from the section of
    the signature file.  sec_data with a missing line separator raises. *)
Fixpoint verify_sections (sf : manifest) (ls : option str) (strict : bool) (secs : list section)
  : res (list str * manifest) :=
  match secs with
  | [] => Ok ([], sf)
  | s :: secs' =>
      n <- primary s ;;
      let '(sfs, sf1) := get_or_create_section sf n in
      let digests := keys_with_suffix s SUF in
      if empty digests && strict then
        '(l, sf2) <- verify_sections sf1 ls strict secs' ;; Ok (n :: l, sf2)
      else
        ok <- some_match sfs SUF (sec_data s ls) digests ;;
        '(l, sf2) <- verify_sections sf1 ls strict secs' ;;
        Ok (if ok then l else n :: l, sf2)
  end.
Definition verify_manifest_entry_checksums (sf mf : manifest) (strict : bool) : res (list str * manifest) :=
  verify_sections sf (m_linesep mf) strict (map snd (m_subs mf)).

(** SignatureManifest.verify_manifest, manifest.py:632-641 *)
Definition verify_manifest (sf mf : manifest) : res (list str) :=
  a <- verify_manifest_main_checksum sf mf ;;
  if a then Ok []
  else
    b <- verify_manifest_main_attributes_checksum sf mf ;;
    if negb b then Ok [MANIFEST_NAME]
    else '(l, _) <- verify_manifest_entry_checksums sf mf true ;; Ok l.

(** ** Jars *)

(** Manifest.load_from_jar, manifest.py:359-367 *)
Definition load_from_jar (m : manifest) (z : zip) : res manifest :=
  if negb (smem MANIFEST_NAME (namelist z)) then Err MissingManifestError
  else data <- zread z MANIFEST_NAME ;; man_parse m data.

(** crypto.verify_signature_block, crypto.py:185-217, as an oracle: does it accept
    this certificate, content and signature? *)
Variable block_ok : bytes -> bytes -> bytes -> bool.

Definition META : str := lit "META-INF/".
(** jarutil.verify step 0, jarutil.py:88-121: the signature file *)
Definition choose_sf (z : zip) (sf_name : option str) : res str :=
  let sf_files := filter file_matches_sigfile (namelist z) in
  match sf_files with
  | [] => Err JarSignatureMissingError
  | [f] => match sf_name with
           | None => Ok f
           | Some n => if seqb f (META ++ n) then Ok f else Err VerificationError
           end
  | _ => match sf_name with
         | None => Err VerificationError
         | Some n => if smem (META ++ n) sf_files then Ok (META ++ n) else Err VerificationError
         end
  end.
(** s[9:-3] *)
Definition alias_of (f : str) : str := skipn 9 (firstn (length f - 3) f).
(** jarutil.py:126-143 *)
Definition find_block (z : zip) (alias : str) : res str :=
  let cand e := META ++ alias ++ [46] ++ e in
  if smem (cand (lit "RSA")) (namelist z) then Ok (cand (lit "RSA"))
  else if smem (cand (lit "DSA")) (namelist z) then Ok (cand (lit "DSA"))
  else if smem (cand (lit "EC")) (namelist z) then Ok (cand (lit "EC"))
  else Err JarSignatureMissingError.

(** jarutil.verify, jarutil.py:72-176 *)
Definition verify (cert : bytes) (z : zip) (sf_name : option str) : res unit :=
  sf_filename <- choose_sf z sf_name ;;
  let key_alias := alias_of sf_filename in
  sf_data <- zread z sf_filename ;;
  blk <- find_block z key_alias ;;
  sig <- zread z blk ;;
  if negb (block_ok cert sf_data sig) then Err SignatureBlockFileVerificationError
  else
    sf <- man_parse (new_sigmanifest None) sf_data ;;
    mf <- load_from_jar (new_manifest None) z ;;
    errors <- verify_manifest sf mf ;;
    match errors with
    | _ :: _ => Err ManifestChecksumError
    | [] =>
        '(errors, _) <- verify_jar_checksums mf z true ;;
        match errors with
        | _ :: _ => Err JarChecksumError
        | [] => Ok tt
        end
    end.

(** crypto.create_signature_block, crypto.py:97-144, for a fixed certificate and
    key: the block for the algorithm and the data; private_key_type,
    crypto.py:73-94: the extension. *)
Variable make_block : str -> bytes -> bytes.
Variable key_ext : str.

(** jarutil.sign, jarutil.py:179-220: the new archive *)
Definition sign (z : zip) (alias alg : str) : res zip :=
  mf0 <- load_from_jar (new_manifest None) z ;;
  mf <- add_jar_entries mf0 z alg ;;
  sf <- digest_manifest (new_sigmanifest (m_linesep mf)) mf alg ;;
  sfd <- man_data sf None ;;
  mfd <- man_data mf None ;;
  rest <- mapM (fun n => b <- zread z n ;; Ok (n, b))
               (filter (fun n => negb (seqb (upper n) MANIFEST_NAME)) (namelist z)) ;;
  Ok ((MANIFEST_NAME, mfd) :: (META ++ alias ++ lit ".SF", sfd)
        :: (META ++ alias ++ [46] ++ key_ext, make_block alg sfd) :: rest).
End Env.
