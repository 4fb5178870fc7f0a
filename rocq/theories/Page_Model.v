(** Model of the HTML pages jardiff and distdiff write (--report html): the Cheetah
    templates /repo/javatools/cheetah/*.tmpl for a JarReport, a DistReport and the
    changes under them, as run by CheetahReportFormat.run_impl (report.py:475-528).
    Pages as in Html_Model, with the same simplifications. *)
From Verif Require Import Base Change_Model Tmpl_Model Report_Model Html_Model.
From Verif Require Zip_Model.

(** resolve_cheetah_template, report.py:585-602, with the program's own classes and templates *)
Definition template (change_type : str) : res str := resolve change_classes template_names change_type.

(** The class attribute [label], jardiff.py:85-287, distdiff.py:77-273.  Of other
    classes it is not asked for by the two templates here. *)
Definition class_labels : list (String.string * String.string) := [
  ("JarContentChange", "Jar Content"); ("JarContentAdded", "Jar Content Added"); ("JarContentRemoved", "Jar Content Removed");
  ("JarClassAdded", "Java Class Added"); ("JarClassRemoved", "Java Class Removed"); ("JarClassChange", "Java Class");
  ("JarManifestChange", "Jar Manifest");
  ("JarSignatureFileChange", "Jar Signature File"); ("JarSignatureFileAdded", "Jar Signature File Added"); ("JarSignatureFileRemoved", "Jar Signature File Removed");
  ("JarSignatureBlockFileChange", "Jar Signature Block File"); ("JarSignatureBlockFileAdded", "Jar Signature Block File Added");
  ("JarSignatureBlockFileRemoved", "Jar Signature Block File Removed"); ("JarGenericFileChange", "Jar Generic File");
  ("DistContentChange", "Distributed Content"); ("DistContentAdded", "Distributed Content Added"); ("DistContentRemoved", "Distributed Content Removed");
  ("DistTextChange", "Distributed Text"); ("DistManifestChange", "Distributed Manifest");
  ("DistJarChange", "Distributed JAR"); ("DistJarAdded", "Distributed JAR Added"); ("DistJarRemoved", "Distributed JAR Removed");
  ("DistClassChange", "Distributed Java Class"); ("DistClassAdded", "Distributed Java Class Added");
  ("DistClassRemoved", "Distributed Java Class Removed")]%string.
Definition class_label (name : str) : res str :=
  match find (fun p => seqb (lit (fst p)) name) class_labels with Some p => Ok (lit (snd p)) | None => Err AttributeError end.

(** ** Single changes *)

(** change.entry, of a class that has it *)
Definition entry_of (c : change) : res str := match k_entry (k_of c) with Some e => Ok e | None => Err AttributeError end.
(** change_SquashedChange.tmpl:6-35 *)
Definition squashed_html (o : options) (c : change) : res (list html) :=
  match k_orig (k_of c) with
  | None => Err AttributeError
  | Some orig =>
      st <- (if is_change c then ig <- is_ignored o c ;; Ok (lit " is_changed" ++ (if ig then lit " is_ignored" else []))
             else Ok (lit " is_unchanged")) ;;
      uri <- details_href c ;;
      e <- entry_of c ;;
      Ok (el "div" [(lit "class", lit "Change " ++ k_name (k_of c) ++ lit " " ++ orig ++ st)] (
            txt (xml_entity_escape e) ++
            el "span" (class_is "moreinfo") (txt (lit "[") ++ el "a" [(lit "href", uri)] (txt (lit "details")) ++ txt (lit "]"))))
  end.
(** The description block of each template: change_Change.tmpl:24-28, which
    change_Addition, change_Removal and change_SuperChange inherit;
    jardiff_JarContentChange.tmpl:5-7 (with jardiff_JarClassChange),
    distdiff_DistContentChange.tmpl:3-6 (with distdiff_DistClassChange);
    manifest_ManifestChange.tmpl:4-6.  The templates of parts of a class
    comparison are in Html_Model; no such change is on the pages here, TypeError
    stands for them. *)
Definition description_html (tmpl : str) (c : change) : res (list html) :=
  if existsb (seqb tmpl) (map lit ["change_Change"; "change_Addition"; "change_Removal"; "change_SuperChange"]%string) then Ok (label_div c)
  else if existsb (seqb tmpl) (map lit ["jardiff_JarContentChange"; "jardiff_JarClassChange"; "distdiff_DistContentChange"; "distdiff_DistClassChange"]%string) then
    e <- entry_of c ;; Ok (txt (xml_entity_escape e))
  else if seqb tmpl (lit "manifest_ManifestChange") then
    Ok (el "div" (class_is "description") (txt (lit "The manifest has changed between Jars")))
  else Err TypeError.

(** ** Lists of entries by type *)

(** A sub-change, and what render_change writes for it *)
Definition kid := (change * res (list html))%type.
Definition kid_type (x : kid) : str := k_name (k_of (fst x)).
(** render_by_class, jardiff_JarContentsReport.tmpl:2-18, distdiff_DistReport.tmpl:5-21:
    a dict by entry, in the order of the sorted entries *)
Definition by_entry (changes : list kid) : res (dict kid) :=
  es <- mapM (fun x => e <- entry_of (fst x) ;; Ok (e, x)) changes ;;
  Ok (fold_left (fun d ex => dset d (fst ex) (snd ex)) es []).
Definition category (changes : list kid) (label : str) : res (list html) :=
  match changes with
  | [] => Ok []
  | _ =>
      chm <- by_entry changes ;;
      hs <- mapM (fun e => match dget chm e with Some x => snd x | None => Err KeyError end) (Zip_Model.sort_names (dkeys chm)) ;;
      Ok (el "div" (class_is "change-category") (el "h2" [] (txt label) ++ concat hs))
  end.
(** jardiff_JarContentsReport.tmpl:49-55, distdiff_DistReport.tmpl:49-57: the
    squashed changes appended to the bucket of their original class, with the
    names at the left of [aliases] replaced *)
Definition original (aliases : list (str * str)) (x : kid) : res str :=
  match k_orig (k_of (fst x)) with
  | None => Err AttributeError
  | Some oc => Ok (match dget aliases oc with Some t => t | None => oc end)
  end.
Fixpoint gather (aliases : list (str * str)) (m : dict (list kid)) (sqs : list kid) : res (dict (list kid)) :=
  match sqs with
  | [] => Ok m
  | x :: sqs' =>
      oc <- original aliases x ;;
      gather aliases (dset m oc ((match dget m oc with Some b => b | None => [] end) ++ [x])) sqs'
  end.
(** [changemap.pop(ct, ())] for the types in order, then the remaining items,
    jardiff_JarContentsReport.tmpl:58-66, distdiff_DistReport.tmpl:60-68 *)
Fixpoint pop_each (m : dict (list kid)) (order : list str) : list (str * list kid) :=
  match order with
  | [] => m
  | t :: ts => (t, match dget m t with Some b => b | None => [] end) :: pop_each (ddel m t) ts
  end.
Definition listing (order : list str) (aliases : list (str * str)) (kids : list kid) : res (list html) :=
  let m0 := collect_by_type kid_type kids in
  let sqs := match dget m0 (lit "SquashedChange") with Some b => b | None => [] end in
  m <- gather aliases (ddel m0 (lit "SquashedChange")) sqs ;;
  hs <- mapM (fun tb => lb <- class_label (fst tb) ;; category (snd tb) lb) (pop_each m order) ;;
  Ok (concat hs).
(** changeorder, jardiff_JarContentsReport.tmpl:33-47 *)
Definition jar_page_order : list str := map lit [
  "JarManifestChange"; "JarSignatureFileAdded"; "JarSignatureFileRemoved"; "JarSignatureFileChange";
  "JarSignatureBlockFileAdded"; "JarSignatureBlockFileRemoved"; "JarSignatureBlockFileChange";
  "JarContentAdded"; "JarContentRemoved"; "JarContentChange"; "JarClassAdded"; "JarClassRemoved"; "JarClassChange"]%string.
(** jardiff_JarContentsReport.tmpl:52-53 *)
Definition jar_aliases : list (str * str) := [(lit "JarClassReport", lit "JarClassChange")].
(** changeorder, distdiff_DistReport.tmpl:34-47 *)
Definition dist_page_order : list str := map lit [
  "DistClassAdded"; "DistClassRemoved"; "DistClassChange"; "DistJarAdded"; "DistJarRemoved"; "DistJarChange"; "DistJarChange";
  "DistTextChange"; "DistManifestChange"; "DistContentAdded"; "DistContentRemoved"; "DistContentChange"]%string.
(** distdiff_DistReport.tmpl:52-55 *)
Definition dist_aliases : list (str * str) := [(lit "DistJarReport", lit "DistJarChange"); (lit "DistClassReport", lit "DistClassChange")].

(** ** render_change, report.py:517-521, for the changes below a report *)
(** jardiff_JarContentsReport.tmpl:22-70 (its comments are [Comment]);
    otherwise change_Change.tmpl:4-45 with the description of the template *)
Fixpoint render (o : options) (c : change) : res (list html) :=
  let 'Node k ch d cs im := c in
  t <- template (k_name k) ;;
  if seqb t (lit "change_SquashedChange") then squashed_html o c
  else
    let f x := (x, render o x) in
    if seqb t (lit "jardiff_JarContentsReport") then
      kids <- pick false k ch (map f cs) (map f im) ;;
      b <- listing jar_page_order jar_aliases kids ;;
      Ok (Comment :: el "div" (class_is "details") b ++ [Comment])
    else
      w <- state_words o c ;;
      de <- description_html t c ;;
      kids <- pick false k ch (map f cs) (map f im) ;;
      co <- match kids with [] => Ok [] | _ => hs <- mapM snd kids ;; Ok (el "div" (class_is "collect") (concat hs)) end ;;
      Ok (el "div" [(lit "class", w)] (de ++ co)).

(** ** Pages *)
(** report.tmpl with another details block *)
Definition page_with (e : page_env) (title : str) (details : list html) : list html :=
  Prolog ::
  el "html" [(lit "xmlns", lit "http://www.w3.org/1999/xhtml"); (lit "xml:lang", lit "en"); (lit "lang", lit "en")] (
    head_html e title ++
    el "body" [] (
      heading_html e title ++
      el "div" (attrs_of [("id", "report-intro")]%string) [] ++
      details ++
      el "div" (attrs_of [("id", "report-outro")]%string) [])).
(** CheetahReportFormat.run_impl, report.py:475-528, for a JarReport
    (jardiff_JarReport.tmpl, which is report.tmpl) and a DistReport
    (distdiff_DistReport.tmpl); TypeError stands for other templates *)
Definition page (e : page_env) (o : options) (c : change) : res (list html) :=
  let name := k_name (k_of c) in
  t <- template name ;;
  kids <- collect c ;;
  if seqb t (lit "jardiff_JarReport") then
    hs <- mapM (render o) kids ;; Ok (page_with e name (el "div" (attrs_of [("id", "report-details")]%string) (concat hs)))
  else if seqb t (lit "distdiff_DistReport") then
    b <- listing dist_page_order dist_aliases (map (fun x => (x, render o x)) kids) ;; Ok (page_with e name b)
  else Err TypeError.
