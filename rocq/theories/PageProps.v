(** C63: every page object says exactly what was set for the page. *)
From Verif Require Import Base TextModel TextSpec TextProofs Crypto DocModel DocSpec DocSort DocProofs DocWalk PageSpec DocPage DocParts DocRes DocRes2 DocEnd DocXref DocLayout DocFile OutlineSpec DocOutline DocBack DocProps DocProps2.
From Coq Require Import String Permutation.
Open Scope Z_scope.
Notation length := List.length.
Local Notation "a +++ b" := (List.app a b) (at level 60, right associativity, only parsing).

(** object [k] is the file specification of the attachment [a], and leads to its content *)
Definition file_specification {E} (d : doc (e_num E)) (file : bytes) (k : Z) (a : attachment) : Prop :=
  exists j spec, object_in file k spec /\ occurs (bs "/EF << /F " +++ dec j +++ bs " 0 R >>") spec /\
    stream_in file j (stored d j (e_zlib E (at_content a))).

(** The page tree gives the default size; the object of each page has its own size if it has one, its boxes
    (in some order), the resources, one annotation for each link and attachment, in order, with its rectangle
    and its target, the transparency group exactly when the file says a version above 1.3, and its content. *)
Theorem C63_page_objects :
  forall (E : env) (d : doc (e_num E)) (pre : bytes),
    well_formed d -> finished d pre -> zlength (file_of d pre) < 10 ^ 10 -> 0 <= d_page d ->
    let pages := firstn (Z.to_nat (d_page d)) (d_pages d) in
    exists version rest kids filespec,
      file_of d pre = pre +++ bs "%PDF-" +++ version +++ eol +++ rest /\
      length kids = length pages /\
      object_in (file_of d pre) 1 (bs "<</Type /Pages" +++ eol +++ bs "/Kids [" +++ refs kids +++ bs "]" +++ eol +++
        bs "/Count " +++ dec (zlen pages) +++ eol +++
        bs "/MediaBox [0 0 " +++ e_fmt2 E (d_defw d) +++ bs " " +++ e_fmt2 E (d_defh d) +++ bs "]" +++ eol +++ bs ">>" +++ eol) /\
      (forall p a, In p (d_docatts d) \/ (exists pg an, In pg (d_pages d) /\ In an (pg_annots pg) /\ an_att an = p) ->
         at_ (d_atts d) p = Some a -> at_objnum a = 0 -> file_specification d (file_of d pre) (filespec p) a) /\
      forall i pg, nth_error pages i = Some pg ->
        exists k t boxes, nth_error kids i = Some k /\ page_object (file_of d pre) k t (k + 1) /\
          Permutation boxes (pg_boxes pg) /\ page_entries d filespec boxes version pg t.
Proof.
  intros E d pre W F S Hp pages. destruct (enddoc_assembled d pre (well_formed_inputs d W) F) as (os & ps & oa & A).
  destruct (tables d _ _ _ _ _ A S) as (x & offs & enc & rest & Sx & Fx & Hl & R & Er & Eb & Ex & Hoff & _).
  destruct (as_nums_att _ _ _ _ _ _ A) as (tab & N1 & N2 & PA). destruct (as_pages _ _ _ _ _ _ A) as (_ & Hp1).
  destruct (as_dpage _ _ _ _ _ _ A) as [Hle _].
  assert (Hlen : length (doc_pages d) = Z.to_nat (d_page d)) by (unfold doc_pages; apply firstn_length_le; unfold zlen in Hle; lia).
  eexists (version2 d), _, (odd_from (3 + 2 * zlen ps) (length (doc_pages d))), (att_of d tab).
  split; [unfold file_of; rewrite Eb; unfold header; rewrite <- ?app_assoc; reflexivity|].
  split; [apply odd_from_len|]. split.
  { apply (lookup d _ _ _ _ _ A S) in Hp1. unfold pages_body, tree_tail in Hp1. rewrite <- ?app_assoc in Hp1.
    replace (zlen pages) with (d_page d); [exact Hp1|]. unfold pages. change (firstn (Z.to_nat (d_page d)) (d_pages d)) with (doc_pages d). unfold zlen. rewrite Hlen. lia. }
  split.
  - intros p a Hu Ha Hz. destruct (as_att _ _ _ _ _ _ A) as (AO & ND & HP & HN & r & Eos).
    assert (Hin : In p ps).
    { apply HP. split.
      - unfold used_atts. rewrite in_app_iff, in_concat. destruct Hu as [Hu|(pg & an & H1 & H2 & H3)]; [now left|]. right.
        exists (map (@an_att _) (pg_annots pg)). split; [apply in_map_iff; eauto|]. rewrite <- H3. now apply in_map.
      - unfold att_num. cbn. now rewrite Ha. }
    apply In_nth_error in Hin as (i & Hi). rewrite (N1 i p Hi).
    assert (G : forall ps k oa i, att_objs d k ps oa -> nth_error ps i = Some p -> exists b1 b2,
      In (obj (k + 2 * Z.of_nat i) b1) oa /\ In (obj (k + 2 * Z.of_nat i + 1) b2) oa /\
      stream_body b1 (cipher d (k + 2 * Z.of_nat i) (e_zlib E (at_content a))) /\
      occurs (bs "/EF << /F " +++ dec (k + 2 * Z.of_nat i) +++ bs " 0 R >>") b2).
    { clear - Ha. induction ps as [|q ps IH]; intros k oa i H Hi; [destruct i; discriminate Hi|].
      destruct H as (o & os' & -> & (a' & b1 & b2 & Ea & -> & (S1 & _) & S2) & H2). destruct i as [|i].
      - injection Hi as ->. rewrite Ha in Ea. injection Ea as <-. rewrite Z.add_0_r. exists b1, b2. split; [now left|]. split; [right; now left|]. tauto.
      - cbn [nth_error] in Hi. destruct (IH _ _ _ H2 Hi) as (c1 & c2 & X2 & X3 & X4).
        replace (k + 2 * Z.of_nat (Datatypes.S i)) with (k + 2 + 2 * Z.of_nat i) by lia. exists c1, c2.
        split; [right; right; exact X2|]. split; [right; right; exact X3|]. exact X4. }
    destruct (G _ _ _ _ AO Hi) as (b1 & b2 & X1 & X2 & X3 & X4).
    exists (3 + 2 * Z.of_nat i), b2. split; [|split; [exact X4|]].
    + replace (4 + 2 * Z.of_nat i) with (3 + 2 * Z.of_nat i + 1) by lia. apply (lookup d _ _ _ _ _ A S). rewrite Eos. apply in_or_app. now left.
    + rewrite <- cipher_stored. eapply (stream_lookup d _ _ _ _ _ A S _ b1); [|exact X3]. rewrite Eos. apply in_or_app. now left.
  - intros i pg Hi. destruct (PA i pg Hi) as (a & o & c & Eo & t & body & -> & _ & _ & PE & _).
    exists (3 + 2 * zlen ps + 2 * Z.of_nat i), t, (e_shuffle E 3 _ (pg_boxes pg)). split; [|split; [|split; [apply (wf_order d W)|exact (PE I)]]].
    + apply odd_from_nth. apply nth_error_Some. unfold doc_pages. change (nth_error pages i <> None). congruence.
    + apply (lookup d _ _ _ _ _ A S). rewrite Eo. apply in_or_app. right. now left.
Qed.
Print Assumptions C63_page_objects.

(** a page of its own size with a crop box, a URI link, an internal link to page 2 and an attachment *)
Definition att63 : attachment := {| at_content := bs "data"; at_name := bs "n"; at_desc := bs "d"; at_objnum := 0 |}.
Definition page63 : page Z :=
  {| pg_content := bs "first"; pg_size := Some (100, 50); pg_boxes := [(bs "CropBox", (1, 2, 3, 4))];
     pg_links := [{| lk_x := 10; lk_y := 90; lk_w := 20; lk_h := 5; lk_link := 0; lk_uri := bs "http://a(b)" |};
                  {| lk_x := 11; lk_y := 80; lk_w := 20; lk_h := 5; lk_link := 1; lk_uri := [] |}];
     pg_annots := [{| an_att := 0; an_x := 1; an_y := 9; an_w := 2; an_h := 3 |}] |}.
Definition doc63 : doc Z := doc0 [page63; page0 (bs "second") []] 2 [att63] [] [(0, 0); (2, 7)] [] None.
Example C63_ex :
  well_formed (E := env0) doc63 /\ finished (E := env0) doc63 [] /\
  page_object (file_of (E := env0) doc63 []) 5
    (line (bs "/MediaBox [0 0 100.00 50.00]") +++ line (bs "/CropBox [1.00 2.00 3.00 4.00]") +++ line (bs "/Resources 2 0 R") +++
     line (bs "/Annots [<</Type /Annot /Subtype /Link /Rect [10.00 90.00 30.00 85.00] /Border [0 0 0] /A <</S /URI /URI (http://a\(b\))>>>>" +++
           bs "<</Type /Annot /Subtype /Link /Rect [11.00 80.00 31.00 75.00] /Border [0 0 0] /Dest [5 0 R /XYZ 0 290.00 null]>>" +++
           bs "<< /Type /Annot /Subtype /FileAttachment /Rect [1.00 9.00 3.00 6.00] /Border [0 0 0]" +++ eol +++
           bs "/Contents (" +++ [254; 255; 0; 100] +++ bs ") /T (" +++ [254; 255; 0; 110] +++ bs ") /AP << /N << /Type /XObject /Subtype /Form /BBox [1.00 9.00 3.00 6.00] /Length 0 >>" +++ eol +++
           bs "stream" +++ eol +++ bs "endstream>>/FS 4 0 R >>" +++ eol +++ bs "]")) 6.
Proof.
  split; [apply doc0_wf|]. split; [split; vm_compute; reflexivity|].
  apply (check_object_in _ (find_xref (file_of (E := env0) doc63 []) 0)). vm_compute. reflexivity.
Qed.
