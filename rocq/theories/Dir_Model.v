(** Model of javatools/dirutils.py: directory comparison and copying.
    (fnmatches, lines 39-48, is in Glob_Model.v.) *)
From Verif Require Import Base Zip_Model.

Fixpoint kid (n : str) (kids : list (str * node)) : option node :=
  match kids with [] => None | (k, v) :: ks => if seqb n k then Some v else kid n ks end.

(** join(p, f) where p is [relpath] of a directory *)
Definition under (rel : list str) (f : str) : str := relpath rel ++ [47] ++ f.

(** filecmp.cmp(f1, f2, shallow=True), which dircmp uses: equal size and
    modification time count as equal; unequal sizes as different; otherwise the
    contents are compared. *)
Definition shallow_cmp (d1 : bytes) (m1 : Z) (d2 : bytes) (m2 : Z) : bool :=
  if ((length d1 =? length d2)%nat && (m1 =? m2)) then true
  else if negb (length d1 =? length d2)%nat then false
  else seqb d1 d2.

(** dirutils.py:104-112 and 117-125: the files of an entry present on one side;
    a directory is walked (only here os.walk follows a link: that of its top) *)
Definition one_side (ev : event) (rel : list str) (f : str) (n : node) : list (event * str) :=
  match n with
  | Dir _ _ => concat (map (fun '(r, _, fs) => map (fun k : str * node => (ev, under r (fst k))) fs) (walk (rel ++ [f]) n))
  | _ => [(ev, slashes (rel ++ [f]))]
  end.

Definition gen_app {A} (a b : gen A) : gen A :=
  match snd a with None => (fst a ++ fst b, snd b) | Some e => (fst a, Some e) end.
Fixpoint gens {A} (l : list (gen A)) : gen A :=
  match l with [] => ([], None) | g :: l' => gen_app g (gens l') end.

(** dirutils.py:96-143 _gen_from_dircmp, on what filecmp.dircmp computes for the
    directory at [rel] with ignore=[]: left_only/right_only; of the common
    names, the directories (subdirs) and the regular files (diff_files,
    same_files); common names of different or other types are common_funny and
    are not looked at.  [sorted(subdirs)] (140) compares dircmp objects, a
    TypeError in Python 3 if there are two or more. *)
Fixpoint gen_from_dircmp (rel : list str) (l r : node) : gen (event * str) :=
  match l, r with
  | Dir _ lk, Dir _ rk =>
      let lnames := sort_names (map fst lk) in
      let rnames := sort_names (map fst rk) in
      let left_only := filter (fun f => negb (smem f (map fst rk))) lnames in
      let right_only := filter (fun f => negb (smem f (map fst lk))) rnames in
      let common := filter (fun f => smem f (map fst rk)) lnames in
      let sides := fun f => match kid f lk, kid f rk with Some a, Some b => Some (a, b) | _, _ => None end in
      let same f := match sides f with Some (File _ d1 m1, File _ d2 m2) => Some (shallow_cmp d1 m1 d2 m2) | _ => None end in
      let diff_files := filter (fun f => match same f with Some false => true | _ => false end) common in
      let same_files := filter (fun f => match same f with Some true => true | _ => false end) common in
      let subdirs := filter (fun f => match sides f with Some (Dir _ _, Dir _ _) => true | _ => false end) common in
      let subs := map (fun k : str * node => (fst k, match kid (fst k) rk with Some b => gen_from_dircmp (rel ++ [fst k]) (snd k) b | None => ([], None) end)) lk in
      let ev1 := concat (map (fun f => match kid f lk with Some n => one_side LEFT rel f n | None => [] end) left_only) in
      let ev2 := concat (map (fun f => match kid f rk with Some n => one_side RIGHT rel f n | None => [] end) right_only) in
      let ev3 := map (fun f => (DIFF, under rel f)) diff_files in
      let ev4 := map (fun f => (SAME, under rel f)) same_files in
      gen_app (ev1 ++ ev2 ++ ev3 ++ ev4, None)
        (match subdirs with
         | _ :: _ :: _ => ([], Some TypeError)
         | _ => gens (map (fun f => match find (fun s => seqb f (fst s)) subs with Some s => snd s | None => ([], None) end) subdirs)
         end)
  | _, _ => ([], None)
  end.
(** dirutils.py:84-93 compare.  (dircmp on something that is not a directory
    raises; not modelled.) *)
Definition dir_compare (l r : node) : gen (event * str) := gen_from_dircmp [] l r.
(** dirutils.py:146-181 collect_compare, collect_compare_into *)
Definition dir_collect_compare (l r : node) (g : groups) : res groups :=
  let '(evs, x) := dir_compare l r in match x with None => Ok (collect_loop evs g) | Some e => Err e end.

(** ** copydir *)
(** The destination: the directories and the files in it, by relative path. *)
Record target := mkt { t_dirs : list (list str); t_files : list (list str * bytes) }.
Fixpoint peq (p q : list str) : bool :=
  match p, q with [], [] => true | x :: p', y :: q' => seqb x y && peq p' q' | _, _ => false end.
Definition pmem (p : list str) (l : list (list str)) : bool := existsb (peq p) l.
Fixpoint pset (p : list str) (d : bytes) (l : list (list str * bytes)) : list (list str * bytes) :=
  match l with [] => [(p, d)] | (q, v) :: l' => if peq p q then (q, d) :: l' else (q, v) :: pset p d l' end.

(** dirutils.py:51-57 makedirsp(join(dest, d)) for a name [d]; dest exists *)
Definition mkdirp (p : list str) (t : target) : target :=
  if pmem p (t_dirs t) || existsb (fun f => peq p (fst f)) (t_files t) then t else mkt (t_dirs t ++ [p]) (t_files t).
(** shutil.copy(root_f, join(dest, p)): into the directory if there is one of
    that name; the parent has to exist.  Copying what is not a regular file
    fails (dangling links: FileNotFoundError; devices: not modelled). *)
Definition copy1 (n : node) (p : list str) (t : target) : res target :=
  match n with
  | File _ d _ =>
      let p' := if pmem p (t_dirs t) then p ++ [last p []] else p in
      if pmem (removelast p') (t_dirs t) then Ok (mkt (t_dirs t) (pset p' d (t_files t))) else Err FileNotFoundError
  | _ => Err FileNotFoundError
  end.
(** dirutils.py:75-79; the list returned holds (root_f, dest_f), here the
    relative path *)
Fixpoint copy_files (rel : list str) (fs : list (str * node)) (st : target * list (list str)) : res (target * list (list str)) :=
  match fs with
  | [] => Ok st
  | (f, n) :: fs' => t <- copy1 n (rel ++ [f]) (fst st) ;; copy_files rel fs' (t, snd st ++ [rel ++ [f]])
  end.
(** dirutils.py:70-79: note line 73, join(dest, d) for a directory d of any level *)
Fixpoint copy_walk (w : list (list str * list (str * node) * list (str * node))) (st : target * list (list str)) : res (target * list (list str)) :=
  match w with
  | [] => Ok st
  | (rel, ds, fs) :: w' =>
      let t := fold_left (fun t d => mkdirp [fst d] t) ds (fst st) in
      st' <- copy_files rel fs (t, snd st) ;; copy_walk w' st'
  end.
(** dirutils.py:60-81 copydir; [mkdirp []] is line 68 *)
Definition copydir (orig : node) (t : target) : res (target * list (list str)) := copy_walk (walk [] orig) (mkdirp [] t, []).
