(** Model of what a manifest object holds when reading a text into it raises:
    /repo/javatools/manifest.py:267-273, 370-390. *)
From Verif Require Import Base ConstPool_Model Manifest_Model.

(** ManifestSection.load, manifest.py:267-273: the attributes set until one is refused *)
Fixpoint sec_load_upto (s : section) (items : list (str * list str)) : section * option exn :=
  match items with
  | [] => (s, None)
  | (k, vals) :: items' =>
      match sec_set s k (concat vals) with
      | Ok s' => sec_load_upto s' items'
      | Err e => (s, Some e)
      end
  end.

(** The loop over the remaining sections, manifest.py:386-390: a section is stored once it
    is complete.  [primary()] cannot be missing, see load_subs in Manifest_Model. *)
Fixpoint load_subs_upto (subs : dict section) (l : list (list (str * list str))) : dict section * option exn :=
  match l with
  | [] => (subs, None)
  | items :: l' =>
      match sec_load_upto (new_section S_None) items with
      | (_, Some e) => (subs, Some e)
      | (s, None) =>
          match dget s K_Name with
          | Some n => load_subs_upto (dset subs n s) l'
          | None => (subs, Some KeyError)
          end
      end
  end.

(** Manifest.parse, manifest.py:370-390: the line separator is set first (379), sections
    are loaded as the generator yields them (383-390), its exception comes last. *)
Definition parse_upto (m : manifest) (data : bytes) : manifest * option exn :=
  let text := utf8_ignore data in
  let ls := Some (detect_linesep text) in
  let '(secs, e) := parse_sections text in
  match secs with
  | [] => (mkman (m_primary_key m) (m_main m) (m_subs m) ls, Some (match e with Some x => x | None => StopIteration end))
  | main :: subs =>
      match sec_load_upto (m_main m) main with
      | (mn, Some x) => (mkman (m_primary_key m) mn (m_subs m) ls, Some x)
      | (mn, None) =>
          let '(sb, r) := load_subs_upto (m_subs m) subs in
          (mkman (m_primary_key m) mn sb ls, match r with Some x => Some x | None => e end)
      end
  end.
