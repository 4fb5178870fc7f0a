(** Model of the clearing of manifest objects: /repo/javatools/manifest.py:491-501. *)
From Verif Require Import Base Manifest_Model.

(** Manifest.clear, manifest.py:491-501: main attributes and sections are removed, the
    line separator stays.  That sections held elsewhere are emptied too (498-499) is not
    modelled. *)
Definition man_clear (m : manifest) : manifest := mkman (m_primary_key m) [] [] (m_linesep m).
