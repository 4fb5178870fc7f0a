(** Model of the choice of a template for a change in an HTML report:
    /repo/javatools/report.py:531-606 and /repo/javatools/cheetah/__init__.py. *)
From Verif Require Import Base.

(** ** Classes and their method resolution order *)

(** A class statement: module, name and bases.  Classes are identified by their
    names, which are distinct in /repo. *)
Record klass := mkkl { kl_module : str; kl_name : str; kl_bases : list str }.
Definition kl (m n : String.string) (bs : list String.string) : klass := mkkl (lit m) (lit n) (map lit bs).

(** One step of the merge that Python uses for type.mro() (called at
    report.py:593): the first head that is in no tail *)
Definition in_tail (x : str) (s : list str) : bool := smem x (tl s).
Fixpoint candidate (seqs all : list (list str)) : option str :=
  match seqs with
  | [] => None
  | (x :: _) :: rest => if existsb (in_tail x) all then candidate rest all else Some x
  | [] :: rest => candidate rest all
  end.
Definition drop_head (x : str) (s : list str) : list str :=
  match s with y :: r => if seqb x y then r else s | [] => [] end.
(** The merge; None if there is no consistent order (Python raises TypeError at
    the class statement) *)
Fixpoint merge (fuel : nat) (seqs : list (list str)) : option (list str) :=
  if forallb (fun s => match s with [] => true | _ => false end) seqs then Some []
  else
    match fuel with
    | O => None
    | S f =>
        match candidate seqs seqs with
        | None => None
        | Some x => match merge f (map (drop_head x) seqs) with Some r => Some (x :: r) | None => None end
        end
    end.
(** The orders of the classes of a program, in the order of their class
    statements; [object] is there from the start.  None if a base is unknown. *)
Fixpoint lookup_all (d : dict (list str)) (ks : list str) : option (list (list str)) :=
  match ks with
  | [] => Some []
  | k :: ks' => match dget d k, lookup_all d ks' with Some m, Some r => Some (m :: r) | _, _ => None end
  end.
Definition mro_of (d : dict (list str)) (c : klass) : option (list str) :=
  match lookup_all d (kl_bases c) with
  | None => None
  | Some ms =>
      let seqs := ms ++ [kl_bases c] in
      match merge (length (concat seqs)) seqs with Some r => Some (kl_name c :: r) | None => None end
  end.
Definition initial : dict (list str) := [(lit "object", [lit "object"])].
Fixpoint mros (d : dict (list str)) (cs : list klass) : option (dict (list str)) :=
  match cs with
  | [] => Some d
  | c :: cs' => match mro_of d c with Some m => mros (d ++ [(kl_name c, m)]) cs' | None => None end
  end.

(** ** Templates *)

(** [tn.split("_", 1)], report.py:555, for a name with an underscore *)
Fixpoint split_under (s : str) : option (str * str) :=
  match s with
  | [] => None
  | c :: r => if c =? 95 then Some ([], r) else match split_under r with Some (a, b) => Some (c :: a, b) | None => None end
  end.
(** _compose_cheetah_template_map, report.py:531-568, on the names of the
    template classes: the dict from change classes to templates; RuntimeError is
    "no change class for template".  Simplification: a name that the module has
    imported from elsewhere is not found here. *)
Definition find_class (cs : list klass) (pn cn : str) : option klass :=
  find (fun c => seqb (kl_module c) pn && seqb (kl_name c) cn) cs.
Fixpoint compose (cs : list klass) (cache : dict str) (names : list str) : res (dict str) :=
  match names with
  | [] => Ok cache
  | tn :: rest =>
      match split_under tn with
      | None => compose cs cache rest
      | Some (pn, cn) =>
          match find_class cs pn cn with
          | None => Err RuntimeError
          | Some c => compose cs (dset cache (kl_name c) tn) rest
          end
      end
  end.
(** The loop of resolve_cheetah_template, report.py:593-596, along the order of a
    class; templates are classes, hence true *)
Fixpoint first_template (tm : dict str) (mro : list str) : res str :=
  match mro with
  | [] => Err RuntimeError
  | t :: rest => match dget tm t with Some tmpl => Ok tmpl | None => first_template tm rest end
  end.
(** resolve_cheetah_template, report.py:585-602 *)
Definition resolve (cs : list klass) (names : list str) (change_type : str) : res str :=
  tm <- compose cs [] names ;;
  match mros initial cs with
  | Some d => match dget d change_type with Some m => first_template tm m | None => Err RuntimeError end
  | None => Err TypeError
  end.

(** ** The classes and templates of the program *)

Local Open Scope string_scope.
(** The class statements of changes, in change.py, manifest.py, classdiff.py,
    jardiff.py and distdiff.py *)
Definition change_classes : list klass := [
  kl "change" "Change" ["object"] (* change.py:121 *);
  kl "change" "Removal" ["Change"] (* change.py:211 *);
  kl "change" "Addition" ["Change"] (* change.py:223 *);
  kl "change" "GenericChange" ["Change"] (* change.py:235 *);
  kl "change" "SuperChange" ["GenericChange"] (* change.py:385 *);
  kl "change" "SquashedChange" ["Change"] (* change.py:535 *);
  kl "change" "SquashedRemoval" ["SquashedChange"; "Removal"] (* change.py:574 *);
  kl "change" "SquashedAddition" ["SquashedChange"; "Addition"] (* change.py:582 *);
  kl "manifest" "ManifestSectionChange" ["GenericChange"] (* manifest.py:127 *);
  kl "manifest" "ManifestSectionAdded" ["ManifestSectionChange"; "Addition"] (* manifest.py:155 *);
  kl "manifest" "ManifestSectionRemoved" ["ManifestSectionChange"; "Removal"] (* manifest.py:167 *);
  kl "manifest" "ManifestMainChange" ["GenericChange"] (* manifest.py:179 *);
  kl "manifest" "ManifestChange" ["SuperChange"] (* manifest.py:203 *);
  kl "manifest" "SignatureManifestChange" ["ManifestChange"] (* manifest.py:654 *);
  kl "manifest" "SignatureBlockFileChange" ["GenericChange"] (* manifest.py:662 *);
  kl "classdiff" "ClassNameChange" ["GenericChange"] (* classdiff.py:90 *);
  kl "classdiff" "ClassVersionChange" ["GenericChange"] (* classdiff.py:103 *);
  kl "classdiff" "ClassPlatformChange" ["GenericChange"] (* classdiff.py:120 *);
  kl "classdiff" "ClassSuperclassChange" ["GenericChange"] (* classdiff.py:137 *);
  kl "classdiff" "ClassInterfacesChange" ["GenericChange"] (* classdiff.py:150 *);
  kl "classdiff" "ClassAccessflagsChange" ["GenericChange"] (* classdiff.py:163 *);
  kl "classdiff" "ClassDeprecationChange" ["GenericChange"] (* classdiff.py:176 *);
  kl "classdiff" "ClassSignatureChange" ["GenericChange"] (* classdiff.py:189 *);
  kl "classdiff" "AnnotationsChange" ["GenericChange"] (* classdiff.py:203 *);
  kl "classdiff" "InvisibleAnnotationsChange" ["AnnotationsChange"] (* classdiff.py:218 *);
  kl "classdiff" "ClassAnnotationsChange" ["AnnotationsChange"] (* classdiff.py:227 *);
  kl "classdiff" "ClassInvisibleAnnotationsChange" ["InvisibleAnnotationsChange"] (* classdiff.py:232 *);
  kl "classdiff" "ClassInfoChange" ["SuperChange"] (* classdiff.py:237 *);
  kl "classdiff" "MemberSuperChange" ["SuperChange"] (* classdiff.py:253 *);
  kl "classdiff" "MemberAdded" ["Addition"] (* classdiff.py:266 *);
  kl "classdiff" "MemberRemoved" ["Removal"] (* classdiff.py:279 *);
  kl "classdiff" "ClassMembersChange" ["SuperChange"] (* classdiff.py:292 *);
  kl "classdiff" "CodeAbsoluteLinesChange" ["GenericChange"] (* classdiff.py:324 *);
  kl "classdiff" "CodeRelativeLinesChange" ["GenericChange"] (* classdiff.py:338 *);
  kl "classdiff" "CodeStackChange" ["GenericChange"] (* classdiff.py:352 *);
  kl "classdiff" "CodeLocalsChange" ["GenericChange"] (* classdiff.py:362 *);
  kl "classdiff" "CodeExceptionChange" ["GenericChange"] (* classdiff.py:371 *);
  kl "classdiff" "CodeConstantsChange" ["GenericChange"] (* classdiff.py:389 *);
  kl "classdiff" "CodeBodyChange" ["GenericChange"] (* classdiff.py:458 *);
  kl "classdiff" "MethodNameChange" ["GenericChange"] (* classdiff.py:499 *);
  kl "classdiff" "MethodTypeChange" ["GenericChange"] (* classdiff.py:508 *);
  kl "classdiff" "MethodSignatureChange" ["GenericChange"] (* classdiff.py:521 *);
  kl "classdiff" "MethodParametersChange" ["GenericChange"] (* classdiff.py:534 *);
  kl "classdiff" "MethodAccessflagsChange" ["GenericChange"] (* classdiff.py:547 *);
  kl "classdiff" "MethodAbstractChange" ["GenericChange"] (* classdiff.py:560 *);
  kl "classdiff" "MethodExceptionsChange" ["GenericChange"] (* classdiff.py:576 *);
  kl "classdiff" "MethodCodeChange" ["SuperChange"] (* classdiff.py:589 *);
  kl "classdiff" "MethodDeprecationChange" ["GenericChange"] (* classdiff.py:627 *);
  kl "classdiff" "MethodAnnotationsChange" ["AnnotationsChange"] (* classdiff.py:640 *);
  kl "classdiff" "MethodInvisibleAnnotationsChange" ["InvisibleAnnotationsChange"] (* classdiff.py:645 *);
  kl "classdiff" "MethodChange" ["MemberSuperChange"] (* classdiff.py:650 *);
  kl "classdiff" "FieldNameChange" ["GenericChange"] (* classdiff.py:668 *);
  kl "classdiff" "FieldTypeChange" ["GenericChange"] (* classdiff.py:677 *);
  kl "classdiff" "FieldSignatureChange" ["GenericChange"] (* classdiff.py:690 *);
  kl "classdiff" "FieldAccessflagsChange" ["GenericChange"] (* classdiff.py:703 *);
  kl "classdiff" "FieldConstvalueChange" ["GenericChange"] (* classdiff.py:720 *);
  kl "classdiff" "FieldDeprecationChange" ["GenericChange"] (* classdiff.py:733 *);
  kl "classdiff" "FieldAnnotationsChange" ["AnnotationsChange"] (* classdiff.py:746 *);
  kl "classdiff" "FieldInvisibleAnnotationsChange" ["InvisibleAnnotationsChange"] (* classdiff.py:751 *);
  kl "classdiff" "FieldChange" ["MemberSuperChange"] (* classdiff.py:756 *);
  kl "classdiff" "FieldAdded" ["MemberAdded"] (* classdiff.py:771 *);
  kl "classdiff" "FieldRemoved" ["MemberRemoved"] (* classdiff.py:776 *);
  kl "classdiff" "ClassFieldsChange" ["ClassMembersChange"] (* classdiff.py:781 *);
  kl "classdiff" "MethodAdded" ["MemberAdded"] (* classdiff.py:801 *);
  kl "classdiff" "MethodRemoved" ["MemberRemoved"] (* classdiff.py:806 *);
  kl "classdiff" "ClassMethodsChange" ["ClassMembersChange"] (* classdiff.py:811 *);
  kl "classdiff" "ClassConstantPoolChange" ["GenericChange"] (* classdiff.py:831 *);
  kl "classdiff" "JavaClassChange" ["SuperChange"] (* classdiff.py:852 *);
  kl "classdiff" "JavaClassReport" ["JavaClassChange"] (* classdiff.py:869 *);
  kl "jardiff" "JarTypeChange" ["GenericChange"] (* jardiff.py:58 *);
  kl "jardiff" "JarContentChange" ["SuperChange"] (* jardiff.py:80 *);
  kl "jardiff" "JarContentAdded" ["JarContentChange"; "Addition"] (* jardiff.py:121 *);
  kl "jardiff" "JarContentRemoved" ["JarContentChange"; "Removal"] (* jardiff.py:130 *);
  kl "jardiff" "JarClassAdded" ["JarContentAdded"] (* jardiff.py:139 *);
  kl "jardiff" "JarClassRemoved" ["JarContentRemoved"] (* jardiff.py:144 *);
  kl "jardiff" "JarClassChange" ["JarContentChange"] (* jardiff.py:149 *);
  kl "jardiff" "JarClassReport" ["JarClassChange"] (* jardiff.py:165 *);
  kl "jardiff" "JarManifestChange" ["JarContentChange"] (* jardiff.py:186 *);
  kl "jardiff" "JarSignatureFileChange" ["JarContentChange"] (* jardiff.py:204 *);
  kl "jardiff" "JarSignatureFileAdded" ["JarContentAdded"] (* jardiff.py:224 *);
  kl "jardiff" "JarSignatureFileRemoved" ["JarContentRemoved"] (* jardiff.py:232 *);
  kl "jardiff" "JarSignatureBlockFileChange" ["JarContentChange"] (* jardiff.py:240 *);
  kl "jardiff" "JarSignatureBlockFileAdded" ["JarContentAdded"] (* jardiff.py:255 *);
  kl "jardiff" "JarSignatureBlockFileRemoved" ["JarContentRemoved"] (* jardiff.py:264 *);
  kl "jardiff" "GenericFileChange" ["GenericChange"] (* jardiff.py:273 *);
  kl "jardiff" "JarGenericFileChange" ["JarContentChange"] (* jardiff.py:285 *);
  kl "jardiff" "JarContentsChange" ["SuperChange"] (* jardiff.py:297 *);
  kl "jardiff" "JarChange" ["SuperChange"] (* jardiff.py:419 *);
  kl "jardiff" "JarContentsReport" ["JarContentsChange"] (* jardiff.py:428 *);
  kl "jardiff" "JarReport" ["JarChange"] (* jardiff.py:484 *);
  kl "distdiff" "DistContentChange" ["SuperChange"] (* distdiff.py:75 *);
  kl "distdiff" "DistContentAdded" ["DistContentChange"; "Addition"] (* distdiff.py:120 *);
  kl "distdiff" "DistContentRemoved" ["DistContentChange"; "Removal"] (* distdiff.py:129 *);
  kl "distdiff" "DistTextChange" ["DistContentChange"] (* distdiff.py:138 *);
  kl "distdiff" "DistManifestChange" ["DistContentChange"] (* distdiff.py:181 *);
  kl "distdiff" "DistJarChange" ["DistContentChange"] (* distdiff.py:200 *);
  kl "distdiff" "DistJarReport" ["DistJarChange"] (* distdiff.py:210 *);
  kl "distdiff" "DistJarAdded" ["DistContentAdded"] (* distdiff.py:225 *);
  kl "distdiff" "DistJarRemoved" ["DistContentRemoved"] (* distdiff.py:230 *);
  kl "distdiff" "DistClassChange" ["DistContentChange"] (* distdiff.py:235 *);
  kl "distdiff" "DistClassReport" ["DistClassChange"] (* distdiff.py:248 *);
  kl "distdiff" "DistClassAdded" ["DistContentAdded"] (* distdiff.py:266 *);
  kl "distdiff" "DistClassRemoved" ["DistContentRemoved"] (* distdiff.py:271 *);
  kl "distdiff" "DistChange" ["SuperChange"] (* distdiff.py:276 *);
  kl "distdiff" "DistReport" ["DistChange"] (* distdiff.py:368 *)
].
(** The templates in /repo/javatools/cheetah, which get_templates
    (cheetah/__init__.py:27-53) finds; setuptools.py there is left out by it *)
Definition template_names : list str := map lit [
  "change_Addition"; "change_Change"; "change_Removal"; "change_SquashedChange"; "change_SuperChange";
  "classdiff_AnnotationsChange"; "classdiff_ClassConstantPoolChange"; "classdiff_ClassFieldsChange";
  "classdiff_ClassInfoChange"; "classdiff_ClassMethodsChange"; "classdiff_FieldChange"; "classdiff_JavaClassReport";
  "classdiff_MethodAdded"; "classdiff_MethodChange"; "classdiff_MethodCodeChange"; "classdiff_MethodRemoved";
  "distdiff_DistClassChange"; "distdiff_DistContentChange"; "distdiff_DistReport";
  "jardiff_JarClassChange"; "jardiff_JarContentChange"; "jardiff_JarContentsReport"; "jardiff_JarReport";
  "manifest_ManifestChange"; "report"; "subreport"].
