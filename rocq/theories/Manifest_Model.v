(** Model of /repo/javatools/manifest.py: reading, writing and checking of jar
    manifests and signature files. *)
From Verif Require Import Base Pack_Model ConstPool_Model.
From Verif Require Export Glob_Model.

(** ** Runtime functions *)

(** str.encode("utf-8") of one character; lone surrogates raise
    UnicodeEncodeError (runtime behaviour, used at manifest.py:287, 774-776). *)
Definition utf8_char (c : Z) : res bytes :=
  if c <? 128 then Ok [c]
  else if c <? 2048 then Ok [192 + c / 64; 128 + c mod 64]
  else if (55296 <=? c) && (c <? 57344) then Err UnicodeEncodeError
  else if c <? 65536 then Ok [224 + c / 4096; 128 + (c / 64) mod 64; 128 + c mod 64]
  else Ok [240 + c / 262144; 128 + (c / 4096) mod 64; 128 + (c / 64) mod 64; 128 + c mod 64].
Fixpoint utf8_encode (s : str) : res bytes :=
  match s with
  | [] => Ok []
  | c :: s' => b <- utf8_char c ;; r <- utf8_encode s' ;; Ok (b ++ r)
  end.

(** Line boundaries of str.splitlines (runtime behaviour, used at
    manifest.py:724): \n \r \v \f \x1c \x1d \x1e \x85    , and \r\n as one. *)
Definition line_break (c : Z) : bool :=
  ((10 <=? c) && (c <=? 13)) || ((28 <=? c) && (c <=? 30)) || (c =? 133) || (c =? 8232) || (c =? 8233).
Fixpoint splitlines_f (fuel : nat) (cur : str) (s : str) : list str :=
  match s with
  | [] => match cur with [] => [] | _ => [rev cur] end
  | c :: s' =>
      match fuel with
      | O => []
      | S fu =>
          if line_break c then
            rev cur :: splitlines_f fu []
              (if c =? 13 then match s' with d :: s'' => if d =? 10 then s'' else s' | [] => s' end else s')
          else splitlines_f fu (c :: cur) s'
      end
  end.
Definition splitlines (s : str) : list str := splitlines_f (length s) [] s.

(** s.split(':', 1) into two parts; [None] when there is no colon *)
Fixpoint split_colon (s : str) : option (str * str) :=
  match s with
  | [] => None
  | c :: s' => if c =? 58 then Some ([], s')
               else match split_colon s' with Some (a, b) => Some (c :: a, b) | None => None end
  end.

(** s.rstrip(chars): removes trailing characters that occur in chars *)
Fixpoint lstrip (chars : str) (s : str) : str :=
  match s with
  | [] => []
  | c :: s' => if existsb (Z.eqb c) chars then lstrip chars s' else s
  end.
Definition rstrip (chars : str) (s : str) : str := rev (lstrip chars (rev s)).

(** os.linesep.  Simplification: POSIX. *)
Definition os_linesep : str := [10].

(** sub in s *)
Fixpoint contains (sub s : str) : bool :=
  starts_with sub s || match s with [] => false | _ :: s' => contains sub s' end.

(** s.split("/") *)
Fixpoint split_on (sep : Z) (cur : str) (s : str) : list str :=
  match s with
  | [] => [rev cur]
  | c :: s' => if c =? sep then rev cur :: split_on sep [] s' else split_on sep (c :: cur) s'
  end.

(** ** Sections *)

(** ManifestSection, manifest.py:230-305: an OrderedDict of strings *)
Definition section := dict str.

(** ManifestSection.__setitem__, manifest.py:244-256 *)
Definition sec_set (s : section) (k v : str) : res section :=
  if Z.of_nat (length k) >? 68 then Err ManifestKeyException else Ok (dset s k v).

(** ManifestSection.__init__, manifest.py:235-237, with primary_key "Name" *)
Definition K_Name : str := lit "Name".
Definition new_section (name : str) : section := [(K_Name, name)].
(** ManifestSection(None): the name is str(None) *)
Definition S_None : str := lit "None".

(** ManifestSection.load, manifest.py:267-273 *)
Fixpoint sec_load (s : section) (items : list (str * list str)) : res section :=
  match items with
  | [] => Ok s
  | (k, vals) :: items' => s' <- sec_set s k (concat vals) ;; sec_load s' items'
  end.

(** the loop of write_key_val over 69-byte parts, manifest.py:786-793 *)
Fixpoint fold_rest (fuel : nat) (ls b : bytes) : bytes :=
  match b with
  | [] => []
  | _ => match fuel with
         | O => []
         | S fu => ls ++ [32] ++ firstn 69 b ++ fold_rest fu ls (skipn 69 b)
         end
  end.

(** write_key_val, manifest.py:761-801: the bytes written.  [linesep] is None when
    the caller passes None.  [val.encode() or ""] makes an empty value the text
    "" which a binary stream refuses (TypeError). *)
Definition write_key_val (key val : str) (linesep : option str) : res bytes :=
  kb <- utf8_encode key ;;
  vb <- utf8_encode val ;;
  ls <- match linesep with Some l => utf8_encode l | None => Err AttributeError end ;;
  if negb ((0 <? Z.of_nat (length kb)) && (Z.of_nat (length kb) <? 69)) then Err ManifestKeyException
  else if Z.of_nat (length kb) + Z.of_nat (length vb) >? 68 then
    let kv := kb ++ [58; 32] ++ vb in
    Ok (firstn 70 kv ++ fold_rest (length kv) ls (skipn 70 kv) ++ ls)
  else match vb with
       | [] => Err TypeError
       | _ => Ok (kb ++ [58; 32] ++ vb ++ ls)
       end.

(** ManifestSection.store and get_data, manifest.py:276-298 *)
Fixpoint write_items (items : list (str * str)) (linesep : option str) : res bytes :=
  match items with
  | [] => Ok []
  | (k, v) :: items' =>
      b <- write_key_val k v linesep ;; r <- write_items items' linesep ;; Ok (b ++ r)
  end.
Definition sec_data (s : section) (linesep : option str) : res bytes :=
  b <- write_items s linesep ;;
  ls <- match linesep with Some l => utf8_encode l | None => Err AttributeError end ;;
  Ok (b ++ ls).

(** ManifestSection.keys_with_suffix, manifest.py:301-305 *)
Definition keys_with_suffix (s : section) (suffix : str) : list str :=
  map (rstrip suffix) (filter (ends_with suffix) (dkeys s)).

(** ** Manifests *)

(** Manifest and SignatureManifest, manifest.py:308-325, 508-515 *)
Record manifest := mkman {
  m_primary_key : str;              (* class attribute *)
  m_main : section;                 (* self *)
  m_subs : dict section;            (* self.sub_sections *)
  m_linesep : option str }.         (* self.linesep *)
Definition K_MV : str := lit "Manifest-Version".
Definition K_SV : str := lit "Signature-Version".
(** Manifest(version="1.0", linesep) and SignatureManifest(...), manifest.py:321-325 *)
Definition new_manifest (linesep : option str) : manifest :=
  mkman K_MV [(K_MV, lit "1.0")] [] linesep.
Definition new_sigmanifest (linesep : option str) : manifest :=
  mkman K_SV [(K_SV, lit "1.0")] [] linesep.

(** Manifest.create_section, manifest.py:328-346 *)
Definition create_section (m : manifest) (name : str) : section * manifest :=
  let s := new_section name in
  (s, mkman (m_primary_key m) (m_main m) (dset (m_subs m) name s) (m_linesep m)).
Definition get_or_create_section (m : manifest) (name : str) : section * manifest :=
  match dget (m_subs m) name with
  | Some s => (s, m)
  | None => create_section m name
  end.

(** detect_linesep, manifest.py:696-700 *)
Definition detect_linesep (data : str) : str :=
  if contains [13; 10] data then [13; 10] else [10].

(** parse_sections, manifest.py:703-758: the sections yielded, and the exception
    that ends the generator, if any.  [curr] is None or the current section,
    items in reverse and their values in reverse. *)
Definition item := (str * list str)%type.
Definition finish (curr : list item) : list (str * list str) :=
  rev (map (fun i => (fst i, rev (snd i))) curr).
Definition clean (line : str) : str := filter (fun c => negb (c =? 0)) line.
Fixpoint parse_lines (curr : option (list item)) (lines : list str)
  : list (list (str * list str)) * option exn :=
  match lines with
  | [] => match curr with
          | Some (i :: c) => ([finish (i :: c)], None)
          | _ => ([], None)
          end
  | line :: lines' =>
      match clean line with
      | [] => match curr with
              | Some (i :: c) =>
                  let '(l, e) := parse_lines None lines' in (finish (i :: c) :: l, e)
              | _ => parse_lines curr lines'
              end
      | x :: rest =>
          if x =? 32 then
            match curr with
            | Some ((k, vals) :: c) => parse_lines (Some ((k, rest :: vals) :: c)) lines'
            | _ => ([], Some MalformedManifest)
            end
          else
            match split_colon (x :: rest) with
            | Some (k, v) =>
                parse_lines (Some ((k, [skipn 1 v]) :: match curr with Some c => c | None => [] end)) lines'
            | None => ([], Some MalformedManifest)
            end
      end
  end.
Definition parse_sections (data : str) : list (list (str * list str)) * option exn :=
  match data with [] => ([], None) | _ => parse_lines None (splitlines data) end.

(** The loop over the remaining sections in Manifest.parse, manifest.py:386-390 *)
Fixpoint load_subs (subs : dict section) (l : list (list (str * list str))) : res (dict section) :=
  match l with
  | [] => Ok subs
  | items :: l' =>
      s <- sec_load (new_section S_None) items ;;
      match dget s K_Name with
      | Some n => load_subs (dset subs n s) l'
      | None => Err KeyError
      end
  end.

(** Manifest.parse, manifest.py:370-390.  Simplification: when it raises, the
    partial changes to the object are not kept.  The exception of a later line
    surfaces when the generator reaches it, after earlier sections were loaded. *)
Definition man_parse (m : manifest) (data : bytes) : res manifest :=
  let text := utf8_ignore data in
  let '(secs, e) := parse_sections text in
  match secs with
  | [] => Err (match e with Some x => x | None => StopIteration end)
  | main :: subs =>
      mn <- sec_load (m_main m) main ;;
      sb <- load_subs (m_subs m) subs ;;
      match e with
      | Some x => Err x
      | None => Ok (mkman (m_primary_key m) mn sb (Some (detect_linesep text)))
      end
  end.

(** [linesep or self.linesep or os.linesep], manifest.py:399, 413, 426 *)
Definition or_linesep (l : option str) (d : str) : str :=
  match l with Some (c :: l') => c :: l' | _ => d end.
Definition man_linesep (m : manifest) (linesep : option str) : str :=
  or_linesep linesep (or_linesep (m_linesep m) os_linesep).

(** sorted(self.sub_sections.values()), manifest.py:402: sections compare by
    get_data() through the reflected __gt__ (manifest.py:240-242).  Python's sort
    is stable; modelled as insertion.  Simplification: the keys are computed
    first, so which of several exceptions is raised may differ. *)
Fixpoint insert_sec (x : bytes * section) (l : list (bytes * section)) : list (bytes * section) :=
  match l with
  | [] => [x]
  | y :: l' => if slt (fst x) (fst y) then x :: l else y :: insert_sec x l'
  end.
Definition sort_secs (l : list (bytes * section)) : list (bytes * section) :=
  fold_left (fun acc x => insert_sec x acc) l [].
Definition sec_key (s : section) : res (bytes * section) :=
  d <- sec_data s (Some os_linesep) ;; Ok (d, s).

(** Manifest.get_main_section, manifest.py:407-417 *)
Definition get_main_section (m : manifest) (linesep : option str) : res bytes :=
  sec_data (m_main m) (Some (man_linesep m linesep)).

(** Manifest.store and get_data, manifest.py:393-404, 420-430 *)
Definition man_data (m : manifest) (linesep : option str) : res bytes :=
  let ls := man_linesep m linesep in
  mn <- sec_data (m_main m) (Some ls) ;;
  ks <- mapM sec_key (map snd (m_subs m)) ;;
  ds <- mapM (fun x => sec_data (snd x) (Some ls)) (sort_secs ks) ;;
  Ok (mn ++ concat ds).
