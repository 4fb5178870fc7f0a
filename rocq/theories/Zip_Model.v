(** Model of javatools/ziputils.py, and of the chunked reading in manifest.py. *)
From Verif Require Import Base.

(** ** Reading in chunks *)
(** [fd.read(n)] of a binary stream with the given remaining data: everything if
    [n] is negative.  (Regular files and zip entries return fewer bytes than
    asked for only at their end.) *)
Definition read_n {A} (n : Z) (rest : list A) : list A * list A :=
  if n <? 0 then (rest, []) else (firstn (Z.to_nat n) rest, skipn (Z.to_nat n) rest).
(** The loop [data = stream.read(n); while data: yield data; data = stream.read(n)]:
    ziputils.py:354-358 chunk_zip_entry, manifest.py:825-831 file_chunk,
    manifest.py:840-846 zipentry_chunk, and ziputils.py:222 [iter(..., b"")] of
    file_crc32.  The fuel bounds the number of chunks. *)
Fixpoint chunk_loop {A} (fuel : nat) (n : Z) (rest : list A) : list (list A) :=
  match fuel with
  | O => []
  | S fu => let '(data, rest') := read_n n rest in
            match data with [] => [] | _ => data :: chunk_loop fu n rest' end
  end.
Definition chunks {A} (n : Z) (data : list A) : list (list A) := chunk_loop (S (length data)) n data.
(** ziputils.py:47 _CHUNKSIZE *)
Definition CHUNKSIZE : Z := 2 ^ 14.

(** zlib.crc32(data, value), used in ziputils.py:223: the CRC-32 of RFC 1952,
    bit by bit. *)
Definition crc_bit (c : Z) : Z :=
  if Z.odd c then Z.lxor 3988292384 (Z.shiftr c 1) else Z.shiftr c 1.
Definition crc_byte (c b : Z) : Z :=
  let c := Z.lxor c b in
  crc_bit (crc_bit (crc_bit (crc_bit (crc_bit (crc_bit (crc_bit (crc_bit c))))))).
Definition crc32 (data : bytes) (value : Z) : Z :=
  Z.lxor 4294967295 (fold_left crc_byte data (Z.lxor 4294967295 value)).

(** ziputils.py:215-224 file_crc32, for a file with the given content *)
Definition file_crc32 (n : Z) (content : bytes) : Z :=
  fold_left (fun check data => crc32 data check) (chunks n content) 0.

(** manifest.py:804-816 digest_chunks: each algorithm is an initial state, an
    update and a final function (hashlib objects; the base64 encoding of
    line 816 is part of the final function) *)
Definition digest_chunks {S D} (cs : list bytes) (algorithms : list (S * (S -> bytes -> S) * (S -> D))) : list D :=
  map (fun '(h, _, final) => final h)
    (fold_left (fun hashes chunk => map (fun '(h, up, final) => (up h chunk, up, final)) hashes) cs algorithms).

(** ** Archives *)
(** What zipfile.ZipInfo holds (file_size, compress_size, CRC as recorded in the
    archive) plus the data that reading the entry gives.  (zipfile raises
    BadZipFile at the end of an entry whose data does not match the recorded
    CRC; this is not modelled, the theorems assume matching entries.) *)
Record zentry := mkz { e_name : str; e_size : Z; e_csize : Z; e_crc : Z; e_data : bytes }.
(** A zipfile.ZipFile, or an ExplodedZipFile (ziputils.py:261-301); [a_open] is
    false after close(). *)
Inductive akind := Zip | Exploded.
Record archive := mka { a_kind : akind; a_open : bool; a_entries : list zentry }.

(** ZipFile.NameToInfo: a later entry of the same name replaces an earlier one.
    ziputils.py:276 [dict(...)] does the same. *)
Definition find_entry (l : list zentry) (n : str) : option zentry :=
  find (fun e => seqb (e_name e) n) (rev l).

Fixpoint insert_name (x : str) (l : list str) : list str :=
  match l with [] => [x] | y :: l' => if sle x y then x :: l else y :: insert_name x l' end.
(** [sorted] of a list of strings *)
Definition sort_names (l : list str) : list str := fold_right insert_name [] l.
Fixpoint nodup_names (l : list str) : list str :=
  match l with [] => [] | x :: l' => if smem x l' then nodup_names l' else x :: nodup_names l' end.

(** ZipFile.namelist; ziputils.py:283-284 ExplodedZipFile.namelist (members is
    None once closed, line 301) *)
Definition namelist (a : archive) : res (list str) :=
  match a_kind a with
  | Zip => Ok (map e_name (a_entries a))
  | Exploded => if a_open a then Ok (sort_names (nodup_names (map e_name (a_entries a)))) else Err AttributeError
  end.
(** ZipFile.getinfo (KeyError if there is none); ziputils.py:279-280
    ExplodedZipFile.getinfo (None if there is none, on which the callers' next
    attribute access raises) *)
Definition getinfo (a : archive) (n : str) : res zentry :=
  match a_kind a with
  | Zip => match find_entry (a_entries a) n with Some e => Ok e | None => Err KeyError end
  | Exploded => if a_open a then match find_entry (a_entries a) n with Some e => Ok e | None => Err AttributeError end
                else Err AttributeError
  end.
(** ZipFile.infolist; ziputils.py:287-288 ExplodedZipFile.infolist *)
Definition infolist (a : archive) : res (list zentry) :=
  match a_kind a with
  | Zip => Ok (a_entries a)
  | Exploded => if a_open a then Ok (a_entries a) else Err AttributeError
  end.

Section Compare.
(** [text b]: the text obtained by reading [b] through [open(fn, "r")]: decoding
    (with the encoding of the locale) and newline translation. *)
Variable text : bytes -> res str.
(** [order l]: the order in which Python iterates over the set [l]. *)
Variable order : list str -> list str.

(** A piece of data read from an entry: bytes from a ZipFile; str from an
    ExplodedZipFile, because open_zip_entry (ziputils.py:333-345) passes mode
    "r" to ExplodedZipFile.open (291-292), which is text mode. *)
Inductive piece := PBytes (b : bytes) | PText (s : str).
Definition peqb (a b : piece) : bool :=
  match a, b with
  | PBytes x, PBytes y => seqb x y
  | PText x, PText y => seqb x y
  | _, _ => false
  end.

(** ziputils.py:348-358 chunk_zip_entry.  Opening an entry of a closed ZipFile
    is a ValueError.  (Text that cannot be decoded fails here before the first
    chunk; in CPython possibly after some chunks have been given.) *)
Definition chunk_zip_entry (n : Z) (a : archive) (name : str) : res (list piece) :=
  match a_kind a with
  | Zip => if a_open a then e <- getinfo a name ;; Ok (map PBytes (chunks n (e_data e))) else Err ValueError
  | Exploded => match find_entry (a_entries a) name with
                | Some e => t <- text (e_data e) ;; Ok (map PText (chunks n t))
                | None => Err FileNotFoundError
                end
  end.

(** ziputils.py:117-120: the loop over zip_longest *)
Fixpoint pieces_differ (l r : list piece) : bool :=
  match l, r with
  | [], [] => false
  | x :: l', y :: r' => if peqb x y then pieces_differ l' r' else true
  | _, _ => true
  end.
(** ziputils.py:108-120 _deep_different *)
Definition deep_different (n : Z) (left right : archive) (f : str) : res bool :=
  l <- chunk_zip_entry n left f ;; r <- chunk_zip_entry n right f ;; Ok (pieces_differ l r).
(** ziputils.py:90-105 _different *)
Definition different (n : Z) (left right : archive) (f : str) : res bool :=
  li <- getinfo left f ;; ri <- getinfo right f ;;
  if (e_size li =? e_size ri) && (e_crc li =? e_crc ri) then deep_different n left right f else Ok true.

(** dirutils.py:32-36 *)
Inductive event := LEFT | RIGHT | DIFF | SAME.
(** A generator: what it yields, and the exception that ends it, if any. *)
Definition gen (A : Type) := (list A * option exn)%type.

(** [f[-1] == '/'] *)
Definition last_slash (f : str) : res bool :=
  match rev f with [] => Err IndexError | c :: _ => Ok (c =? 47) end.
Definition remove_name (f : str) (l : list str) : list str := filter (fun x => negb (seqb f x)) l.

(** ziputils.py:69-87: the loops of compare_zips *)
Fixpoint compare_loop (n : Z) (left right : archive) (ll rl : list str) : gen (event * str) :=
  match ll with
  | [] => (map (fun f => (RIGHT, f)) (order rl), None)
  | f :: ll' =>
      let go := fun ev rl' => let '(evs, x) := compare_loop n left right ll' rl' in (ev ++ evs, x) in
      if smem f rl then
        let rl' := remove_name f rl in
        match last_slash f with
        | Err e => ([], Some e)
        | Ok true => go [] rl'
        | Ok false =>
            match different n left right f with
            | Err e => ([], Some e)
            | Ok true => go [(DIFF, f)] rl'
            | Ok false => go [(SAME, f)] rl'
            end
        end
      else go [(LEFT, f)] rl
  end.
(** ziputils.py:60-87 compare_zips *)
Definition compare_zips (n : Z) (left right : archive) : gen (event * str) :=
  match namelist left with
  | Err e => ([], Some e)
  | Ok ln => match namelist right with
             | Err e => ([], Some e)
             | Ok rn => compare_loop n left right (order (nodup_names ln)) (nodup_names rn)
             end
  end.

(** close(): the members of an ExplodedZipFile are gone (ziputils.py:300-301),
    a ZipFile can no longer open entries *)
Definition close (a : archive) : archive := mka (a_kind a) false (a_entries a).
(** ziputils.py:50-57 compare: the generator is returned out of the with block,
    so it runs only after both archives have been closed *)
Definition compare (n : Z) (left right : archive) : gen (event * str) := compare_zips n (close left) (close right).

(** [group.append(filename)] for a group that may be None *)
Definition append_to (g : option (list str)) (f : str) : option (list str) :=
  match g with Some l => Some (l ++ [f]) | None => None end.
Definition groups := (option (list str) * option (list str) * option (list str) * option (list str))%type.
(** ziputils.py:163-176: added, removed, altered, same *)
Fixpoint collect_loop (evs : list (event * str)) (g : groups) : groups :=
  match evs with
  | [] => g
  | (e, f) :: evs' =>
      let '(ad, re, al, sa) := g in
      collect_loop evs' (match e with
        | LEFT => (ad, append_to re f, al, sa)
        | RIGHT => (append_to ad f, re, al, sa)
        | DIFF => (ad, re, append_to al f, sa)
        | SAME => (ad, re, al, append_to sa f)
        end)
  end.
(** ziputils.py:156-178 collect_compare_zips_into; 133-144 collect_compare_into
    is the same on the freshly opened archives (used up before they are closed) *)
Definition collect_compare_zips_into (n : Z) (left right : archive) (g : groups) : res groups :=
  let '(evs, x) := compare_zips n left right in
  match x with None => Ok (collect_loop evs g) | Some e => Err e end.
(** ziputils.py:123-130, 147-153 collect_compare, collect_compare_zips *)
Definition collect_compare_zips (n : Z) (left right : archive) : res groups :=
  collect_compare_zips_into n left right (Some [], Some [], Some [], Some []).
End Compare.

(** ziputils.py:361-379 zip_entry_rollup: files, dirs, total_c, total_u *)
Fixpoint rollup_loop (l : list zentry) (acc : Z * Z * Z * Z) : res (Z * Z * Z * Z) :=
  match l with
  | [] => Ok acc
  | i :: l' =>
      let '(files, dirs, total_c, total_u) := acc in
      d <- last_slash (e_name i) ;;
      rollup_loop l' (if d : bool then (files, dirs + 1, total_c, total_u)
                      else (files + 1, dirs, total_c + e_csize i, total_u + e_size i))
  end.
Definition zip_entry_rollup (a : archive) : res (Z * Z * Z * Z) := l <- infolist a ;; rollup_loop l (0, 0, 0, 0).

(** ** Directory trees *)
(** What stat() finds under a name: a regular file with its content and
    modification time, a directory, or anything else (devices, dangling links);
    [link] tells whether the name is itself a symbolic link. *)
Inductive node :=
| File (link : bool) (data : bytes) (mtime : Z)
| Dir (link : bool) (kids : list (str * node))
| Other (link : bool).
Definition is_link (n : node) : bool := match n with File l _ _ => l | Dir l _ => l | Other l => l end.
Definition is_dir (n : node) : bool := match n with Dir _ _ => true | _ => false end.
(** os.walk(top) with its defaults: for each directory its path relative to
    [top], the directories (links to directories included) and the other entries in
    it; links to directories are not descended into. *)
Fixpoint walk (rel : list str) (n : node) : list (list str * list (str * node) * list (str * node)) :=
  match n with
  | Dir _ kids =>
      (rel, filter (fun k => is_dir (snd k)) kids, filter (fun k => negb (is_dir (snd k))) kids) ::
      concat (map (fun k : str * node => if is_link (snd k) then [] else walk (rel ++ [fst k]) (snd k)) kids)
  | _ => []
  end.

(** [join] of path components; [relpath] of a directory to itself is "." *)
Definition slashes (p : list str) : str := concat_with [47] p.
Definition relpath (p : list str) : str := match p with [] => [46] | _ => slashes p end.

(** ziputils.py:227-258 _collect_infos: the entries in the order given *)
Definition infos_of (x : list str * list (str * node) * list (str * node)) : list zentry :=
  let '(r, _, fs) := x in
  (match r with [] => [] | _ => [mkz (relpath r ++ [47]) 0 0 0 []] end) ++
  concat (map (fun f : str * node =>
    match snd f with
    | File false data _ =>
        let size := Z.of_nat (length data) in
        [mkz (slashes (r ++ [fst f])) size size (file_crc32 CHUNKSIZE data) data]
    | _ => []
    end) fs).
Definition collect_infos (top : node) : list zentry := concat (map infos_of (walk [] top)).
(** ziputils.py:268-276 ExplodedZipFile(pathname) *)
Definition exploded (top : node) : archive := mka Exploded true (collect_infos top).
