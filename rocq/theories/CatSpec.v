(** Specification for C71: the trailer, the information dictionary and the catalog. *)
From Verif Require Import Base TextModel TextSpec Crypto DocModel DocSpec ResSpec.
From Coq Require Import String.
Open Scope Z_scope.
Notation length := List.length.
Local Notation "a +++ b" := (List.app a b) (at level 60, right associativity, only parsing).

Definition line (s : bytes) : bytes := s +++ eol.

(** ** The information dictionary *)
(** the entries: name, value, and whether an empty value is written too *)
Definition info_entries {E : env} (d : doc (e_num E)) : list (bytes * bytes) :=
  filter (fun e => negb (match snd e with [] => true | _ => false end))
    [(bs "Producer", d_producer d); (bs "Title", d_title d); (bs "Subject", d_subject d);
     (bs "Author", d_author d); (bs "Keywords", d_keywords d); (bs "Creator", d_creator d)] +++
  [(bs "CreationDate", d_created d); (bs "ModDate", d_modified d)].
Definition info_text (l : list (bytes * bytes)) : bytes :=
  line (bs "<<") +++ List.concat (map (fun e => line (bs "/" +++ fst e +++ bs " (" +++ escape (snd e) +++ bs ")")) l) +++ line (bs ">>").

(** ** The catalog *)
Definition view_line (zoom : bytes) : bytes :=
  if beqb zoom (bs "fullpage") then line (bs "/OpenAction [3 0 R /Fit]")
  else if beqb zoom (bs "fullwidth") then line (bs "/OpenAction [3 0 R /FitH null]")
  else if beqb zoom (bs "real") then line (bs "/OpenAction [3 0 R /XYZ null null 1]")
  else [].
(** the documented names of the page layouts, and the names of PDF *)
Definition layouts : list (bytes * bytes) :=
  [(bs "single", bs "SinglePage"); (bs "SinglePage", bs "SinglePage"); (bs "continuous", bs "OneColumn"); (bs "OneColumn", bs "OneColumn");
   (bs "two", bs "TwoColumnLeft"); (bs "TwoColumnLeft", bs "TwoColumnLeft"); (bs "TwoColumnRight", bs "TwoColumnRight");
   (bs "TwoPageLeft", bs "TwoPageLeft"); (bs "TwoPageRight", bs "TwoPageRight")].
Definition layout_line (layout : bytes) : bytes :=
  match find (fun e => beqb layout (fst e)) layouts with Some e => line (bs "/PageLayout /" +++ snd e) | None => [] end.
Definition ref (k : Z) : bytes := dec k +++ bs " 0 R".
Definition layer_lines (layers : list (Z * bool)) (pane : bool) : bytes :=
  match layers with
  | [] => []
  | _ => let all := List.concat (map (fun p => ref (fst p) +++ bs " ") layers) in
         let hidden := List.concat (map (fun p => ref (fst p) +++ bs " ") (filter (fun p => negb (snd p)) layers)) in
         line (bs "/OCProperties <</OCGs [" +++ all +++ bs "] /D <</OFF [" +++ hidden +++ bs "] /Order [" +++ all +++ bs "]>>>>") +++
         (if pane then line (bs "/PageMode /UseOC") else [])
  end.
Fixpoint file_names (i : Z) (files : list Z) : bytes :=
  match files with
  | [] => []
  | [k] => bs "(Attachement" +++ dec i +++ bs ") " +++ ref k +++ bs " "
  | k :: t => bs "(Attachement" +++ dec i +++ bs ") " +++ ref k +++ bs " " +++ eol +++ file_names (i + 1) t
  end.
Definition catalog_text (zoom layout : bytes) (outlines : option Z) (layers : list (Z * bool)) (pane : bool) (js : option Z) (files : list Z) : bytes :=
  line (bs "<<") +++ line (bs "/Type /Catalog") +++ line (bs "/Pages 1 0 R") +++ view_line zoom +++ layout_line layout +++
  match outlines with Some k => line (bs "/Outlines " +++ ref k) +++ line (bs "/PageMode /UseOutlines") | None => [] end +++
  layer_lines layers pane +++
  line (bs "/Names <<") +++
  match js with Some k => line (bs "/JavaScript " +++ ref k) | None => [] end +++
  line (bs "/EmbeddedFiles << /Names [" +++ eol +++ bs " " +++ file_names 1 files +++ bs " " +++ eol +++ bs "] >>") +++
  line (bs ">>") +++ line (bs ">>").

(** ** What the references of the catalog lead to.  [O k body]: object k is [body]; [S k data]: what object k stores for [data] *)
Section Lead.
  Context {E : env} (d : doc (e_num E)) (O : Z -> bytes -> Prop) (S : Z -> bytes -> bytes).
  (** the root of the bookmarks *)
  Definition outlines_lead (o : option Z) : Prop :=
    match o with
    | None => d_outlines d = []
    | Some k => d_outlines d <> [] /\ exists first last, O k (line (bs "<</Type /Outlines /First " +++ ref first) +++ line (bs "/Last " +++ ref last +++ bs ">>")) /\
        exists o t, nth_error (d_outlines d) 0 = Some o /\ O first (line (bs "<</Title (" +++ escape (S first (ou_text o)) +++ bs ")") +++ t)
    end.
  (** the layers, in their order, with their names *)
  Definition layers_lead (l : list (Z * bool)) : Prop :=
    Forall2 (fun layer p => snd p = la_visible layer /\ layer_at O S (fst p) layer) (d_layers d) l.
  (** the script *)
  Definition script_lead (o : option Z) : Prop :=
    match d_js d, o with
    | None, None => True
    | Some js, Some k => exists m, O k (line (bs "<<") +++ line (bs "/Names [(EmbeddedJS) " +++ ref m +++ bs "]") +++ line (bs ">>")) /\
                                   O m (line (bs "<<") +++ line (bs "/S /JavaScript") +++ line (bs "/JS (" +++ escape (S m js) +++ bs ")") +++ line (bs ">>"))
    | _, _ => False
    end.
  (** the attachments of the document, in their order.  An attachment that already has an object number (from an earlier
      document) keeps it, see C32 *)
  Definition file_lead (p k : Z) : Prop :=
    exists a, at_ (d_atts d) p = Some a /\
      if at_objnum a =? 0 then exists m body spec, O k spec /\ occurs (bs "/EF << /F " +++ ref m +++ bs " >>") spec /\
                                 O m body /\ stream_body body (S m (e_zlib E (at_content a)))
      else k = at_objnum a.
  Definition files_lead (files : list Z) : Prop := Forall2 file_lead (d_docatts d) files.
End Lead.
