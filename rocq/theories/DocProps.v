(** Properties of the file written by Output: C12 to C17, C32, C33, C37.

    [finished d pre]: assembly ends without error and without panic; [pre] is what drawing calls left in
    the buffer before the first page.  [file_of d pre] is the file. *)
From Verif Require Import Base TextModel TextSpec TextProofs Crypto DocModel DocSpec DocSort DocProofs DocWalk DocParts DocRes DocRes2 DocEnd DocXref DocLayout DocFile OutlineSpec DocOutline DocBack.
From Coq Require Import String Permutation.
Open Scope Z_scope.
Notation length := List.length.
Local Notation "a +++ b" := (List.app a b) (at level 60, right associativity, only parsing).

(** ** A concrete environment and documents *)
Definition hex_digit (v : Z) : Z := if v <? 10 then 48 + v else 87 + v.
Definition env0 : env := {|
  e_num := Z; e_nadd := Z.add; e_nsub := Z.sub; e_nmul := Z.mul; e_nopp := Z.opp; e_ntwo := 2;
  e_fmt2 := fun x => dec x +++ bs ".00"; e_fmt3 := fun x => dec x +++ bs ".000"; e_fmt5 := fun x => dec x +++ bs ".00000";
  e_pct3 := fun x => dec x; e_zlib := fun s => bs "z" +++ s; e_md5 := md5_sum;
  e_hex := flat_map (fun c => [hex_digit (c / 16); hex_digit (c mod 16)]);
  e_shuffle := fun _ _ l => l; e_to_unicode := bs "cmap" |}.
Definition page0 (c : bytes) (links : list (link Z)) : page Z :=
  {| pg_content := c; pg_size := None; pg_boxes := []; pg_links := links; pg_annots := [] |}.
(** a document with the given pages, attachments, bookmarks and encryption *)
Definition doc0 (pages : list (page Z)) (page : Z) (atts : list attachment) (docatts : list Z) (links : list (Z * Z))
    (outlines : list (outline Z)) (prot : option protect) : doc Z := {|
  d_pages := pages; d_page := page; d_k := 1; d_h := 297; d_defw := 210; d_defh := 297; d_links := links;
  d_alias := []; d_aliasnb := []; d_atts := atts; d_docatts := docatts; d_version := bs "1.3"; d_blendmap := false;
  d_compress := false; d_sort := true; d_gsort := true; d_protect := prot; d_layers := []; d_pane := false;
  d_blends := []; d_grads := []; d_spots := []; d_diffs := []; d_files := []; d_fonts := []; d_images := []; d_tpls := [];
  d_impobjs := []; d_imptpls := []; d_js := None; d_xmp := bs "<x/>"; d_outlines := outlines;
  d_producer := bs "p"; d_title := []; d_subject := []; d_author := []; d_keywords := []; d_creator := [];
  d_created := bs "D:2000"; d_modified := bs "D:2001"; d_zoom := bs "fullpage"; d_layout := []; d_pagesizes := fun _ => None |}.

Lemma plain_digits s : Forall (fun c => c <> 47 /\ c <> 76) s -> plain s.
Proof.
  intros F. split.
  - destruct F as [|c s [H1 H2] F]; [discriminate|exact H2].
  - intros a b ->. rewrite Forall_app in F. destruct F as [_ F]. inversion F as [|? ? [H _] _]. now apply H.
Qed.
Lemma dec_noslash x : Forall (fun c => c <> 47 /\ c <> 76) (dec x).
Proof.
  unfold dec. assert (G : forall n, 0 <= n -> Forall (fun c => c <> 47 /\ c <> 76) (dec_nat n)).
  { intros n Hn. eapply Forall_impl; [|apply dec_nat_digits]. cbv beta. unfold is_digit. intros c Hc. lia. }
  destruct (x <? 0) eqn:Ex; [constructor; [lia|]|]; apply G; lia.
Qed.
Lemma env0_fmt x : plain (e_fmt2 env0 x) /\ plain (e_fmt5 env0 x).
Proof.
  split; apply plain_digits; cbn [e_fmt2 e_fmt5 env0]; apply Forall_app; (split; [apply dec_noslash|]); repeat constructor; discriminate.
Qed.
Lemma doc0_wf pages page atts docatts links outlines prot : well_formed (E := env0) (doc0 pages page atts docatts links outlines prot).
Proof. constructor; try (intros; contradiction); [reflexivity|apply env0_fmt]. Qed.

(** ** C12 Every cross-reference entry points at its object *)
Theorem C12_cross_reference_table :
  forall (E : env) (d : doc (e_num E)) (pre : bytes),
    well_formed d -> finished d pre -> zlength (file_of d pre) < 10 ^ 10 ->
    exists x entries rest n,
      found_at (file_of d pre) (zlength pre) (bs "%PDF-") /\
      startxref (file_of d pre) x /\ found_at (file_of d pre) x (bs "xref" +++ eol) /\
      read_table (skipn (Z.to_nat x) (file_of d pre)) = Some (entries, rest) /\
      zlen entries = n + 1 /\ nth_error entries 0 = Some (Free 0 65535) /\
      (forall k, 1 <= k <= n -> exists off, nth_error entries (Z.to_nat k) = Some (InUse off 0) /\
         found_at (file_of d pre) off (dec k +++ bs " 0 obj" +++ eol)) /\
      exists t, rest = bs "trailer" +++ eol +++ bs "<<" +++ eol +++ bs "/Size " +++ dec (n + 1) +++ eol +++ t.
Proof.
  intros E d pre W F S. destruct (enddoc_assembled d pre (well_formed_inputs d W) F) as (os & ps & oa & A).
  destruct (tables d _ _ _ _ _ A S) as (x & offs & enc & rest & Sx & Fx & Hl & R & Er & Eb & Ex & Hoff & _).
  exists x, (Free 0 65535 :: map (fun o => InUse o 0) offs), rest, (w_n (enddoc d (w_init pre))).
  split; [|split; [exact Sx|split; [exact Fx|split; [exact R|split; [|split; [reflexivity|split]]]]]].
  - eapply (found_at_app' _ pre (bs "%PDF-")); [|reflexivity]. unfold file_of. rewrite Eb. unfold header. rewrite <- ?app_assoc. reflexivity.
  - rewrite zlen_cons. unfold zlen in *. rewrite map_length. lia.
  - intros k Hk. assert (Hin : In k (map fst os)) by (eapply num_range; eauto).
    apply in_map_iff in Hin as ([k' s] & Ek & Hin). cbn in Ek. subst k'. destruct (Hoff k s Hin) as (off & Hn & [H0 (r & Hf)]).
    exists off. split.
    + replace (Z.to_nat k) with (Datatypes.S (Z.to_nat (k - 1))) by lia. cbn [nth_error]. exact (map_nth_error (fun o => InUse o 0) _ _ Hn).
    + split; [exact H0|]. exists (s +++ r). unfold file_of. rewrite Hf. unfold objtext. cbn [fst snd]. change eol with nl. rewrite <- ?app_assoc. reflexivity.
  - eexists. rewrite Er. unfold trailer_text. change eol with nl. rewrite <- ?app_assoc. reflexivity.
Qed.
Print Assumptions C12_cross_reference_table.

(** ** C13 Object numbers are unique and every object is closed *)
Theorem C13_objects_numbered_and_closed :
  forall (E : env) (d : doc (e_num E)) (pre : bytes),
    well_formed d -> finished d pre -> zlength (file_of d pre) < 10 ^ 10 ->
    exists hdr ks body x tail n,
      file_of d pre = hdr +++ body +++ tail /\ found_at (file_of d pre) x tail /\ startxref (file_of d pre) x /\
      (exists v, hdr = pre +++ bs "%PDF-" +++ v +++ eol) /\
      blocks ks body /\ Permutation ks (nums 1 (Z.to_nat n)) /\ 4 <= n /\
      (* the references of the trailer, and those between catalog, page tree and resources *)
      occurs (bs "/Size " +++ dec (n + 1) +++ eol +++ bs "/Root " +++ dec n +++ bs " 0 R" +++ eol +++ bs "/Info " +++ dec (n - 1) +++ bs " 0 R" +++ eol) tail /\
      (exists t, object_in (file_of d pre) n (bs "<<" +++ eol +++ bs "/Type /Catalog" +++ eol +++ bs "/Pages 1 0 R" +++ eol +++ t)) /\
      (exists t, object_in (file_of d pre) (n - 1) t) /\
      (exists t, object_in (file_of d pre) 1 (bs "<</Type /Pages" +++ eol +++ t)) /\
      (exists t, object_in (file_of d pre) 2 (bs "<<" +++ eol +++ t)) /\
      (d_protect d <> None -> exists k t, occurs (bs "/Encrypt " +++ dec k +++ bs " 0 R") tail /\
         object_in (file_of d pre) k (bs "<<" +++ eol +++ bs "/Filter /Standard" +++ eol +++ t)).
Proof.
  intros E d pre W F S. destruct (enddoc_assembled d pre (well_formed_inputs d W) F) as (os & ps & oa & A).
  destruct (tables d _ _ _ _ _ A S) as (x & offs & enc & rest & Sx & Fx & Hl & R & Er & Eb & Ex & Hoff & He).
  exists (pre +++ header d), (map fst os), (render os), x. eexists. exists (w_n (enddoc d (w_init pre))).
  split; [unfold file_of; rewrite Eb, <- ?app_assoc; reflexivity|].
  split. { unfold file_of. eapply (found_at_app' _ _ _ []); [|exact Ex]. rewrite app_nil_r. exact Eb. }
  split; [exact Sx|]. split. { exists (version2 d). unfold header. change eol with nl. rewrite <- ?app_assoc. reflexivity. }
  split; [exact (blocks_os d _ _ _ _ _ A)|]. split; [exact (as_nums _ _ _ _ _ _ A)|]. split; [exact (as_n _ _ _ _ _ _ A)|].
  destruct (as_outl _ _ _ _ _ _ A) as (no & _ & tc & Hc & _). destruct (as_info _ _ _ _ _ _ A) as (ti & Hi).
  destruct (as_pages _ _ _ _ _ _ A) as (_ & Hp). destruct (as_dict _ _ _ _ _ _ A) as (td & Hd).
  split; [|split; [|split; [|split; [|split]]]].
  - unfold xref_text, trailer_text, occurs. change eol with nl.
    exists (bs "xref" +++ nl +++ (bs "0 " +++ dec (w_n (enddoc d (w_init pre)) + 1)) +++ nl +++ bs "0000000000 65535 f " +++ nl +++
      List.concat (map entry_text offs) +++ bs "trailer" +++ nl +++ bs "<<" +++ nl). eexists. rewrite <- ?app_assoc. reflexivity.
  - exists tc. exact (lookup d _ _ _ _ _ A S _ _ Hc).
  - exists ti. exact (lookup d _ _ _ _ _ A S _ _ Hi).
  - eexists. exact (lookup d _ _ _ _ _ A S _ _ Hp).
  - eexists. exact (lookup d _ _ _ _ _ A S _ _ Hd).
  - intros Hn. destruct (d_protect d) as [p|]; [|contradiction]. destruct He as (k & -> & Hk). exists k. eexists. split.
    + unfold xref_text, trailer_text. do 11 apply occurs_app_r. apply occurs_app_l.
      do 6 apply occurs_app_r. apply occurs_app_l. apply occurs_refl.
    + exact (lookup d _ _ _ _ _ A S _ _ Hk).
Qed.
Print Assumptions C13_objects_numbered_and_closed.

(** ** C14 Stream Length equals the number of bytes in the stream *)
(** [stored d k data]: the bytes to expect in the stream of object k *)
Definition stored {E} (d : doc (e_num E)) (k : Z) (data : bytes) : bytes :=
  std_crypt (e_md5 E) (option_map pr_key (d_protect d)) k data.
Definition packed {E} (d : doc (e_num E)) (data : bytes) : bytes := if d_compress d then e_zlib E data else data.
Lemma cipher_stored {E} (d : doc (e_num E)) k data : cipher d k data = stored d k data.
Proof. unfold cipher, stored, std_crypt. destruct (d_protect d); reflexivity. Qed.

Theorem C14_stream_lengths :
  forall (E : env) (d : doc (e_num E)) (pre : bytes),
    well_formed d -> finished d pre -> zlength (file_of d pre) < 10 ^ 10 ->
    let has data := exists k, stream_in (file_of d pre) k (stored d k data) in
    (* pages *)
    (forall pg, In pg (firstn (Z.to_nat (d_page d)) (d_pages d)) -> has (packed d (replace_aliases d (pg_content pg)))) /\
    (* embedded files *)
    (forall p a, In p (used_atts d) -> at_ (d_atts d) p = Some a -> at_objnum a = 0 -> has (e_zlib E (at_content a))) /\
    (* images, soft masks, palettes; images with the same content id share one object *)
    (forall e, In e (d_images d) -> exists e', In e' (d_images d) /\ im_id (snd e') = im_id (snd e) /\ has (im_data (snd e')) /\
       (forall c m, im_smask (snd e') = Some (c :: m) -> has (c :: m)) /\
       (im_cs (snd e') = bs "Indexed" -> has (packed d (im_pal (snd e'))))) /\
    (* templates, also those used only by other templates *)
    (forall e t, In e (d_tpls d) -> within t (snd e) -> has (packed d (tpl_content t))) /\
    (* font files and composite fonts *)
    (forall e, In e (d_files d) -> ff_utf8 (snd e) = false -> exists content, ff_content (snd e) = Some content /\
       has (fontfile_data (fst e) (snd e) content)) /\
    (forall e, In e (d_fonts d) -> fo_type (snd e) = FUtf8 ->
       has (e_to_unicode E) /\ has (e_zlib E (fo_utf8 (snd e))) /\ exists gm, gid_map (fo_gids (snd e)) gid_zero = Some gm /\ has (e_zlib E gm)) /\
    (* metadata *)
    (d_xmp d <> [] -> has (d_xmp d)).
Proof.
  intros E d pre W F S has. destruct (enddoc_assembled d pre (well_formed_inputs d W) F) as (os & ps & oa & A).
  pose proof (fun data => holds_in d _ _ _ _ _ A S data) as HI.
  assert (H0 : forall data, holds d data os -> has data).
  { intros data Hh. destruct (HI data Hh) as (k & Hk). exists k. rewrite <- cipher_stored. exact Hk. }
  pose proof (fun X s b lt (l : list X) x => keyed_in E (wf_order _ W) s b lt l x) as KI.
  destruct (as_res _ _ _ _ _ _ A) as [[RF RU] RI RT].
  split; [|split; [|split; [|split; [|split; [|split]]]]].
  - intros pg Hin. apply In_nth_error in Hin as (i & Hi). destruct (as_pages _ _ _ _ _ _ A) as ((tab & PA) & _).
    destruct (PA i pg Hi) as (a & o & c & Eo & t & body & -> & _ & Sb & _). exists (3 + 2 * zlen ps + 2 * Z.of_nat i + 1).
    rewrite <- cipher_stored. eapply (stream_lookup d _ _ _ _ _ A S _ body); [|exact Sb].
    rewrite Eo. apply in_or_app. right. right. now left.
  - intros p a Hp Ha Hz. destruct (as_att _ _ _ _ _ _ A) as (AO & _ & HP & _ & r & Er).
    assert (Hin : In p ps). { apply HP. split; [exact Hp|]. unfold att_num. cbn. rewrite Ha. exact Hz. }
    assert (G : forall ps k oa, att_objs d k ps oa -> In p ps -> exists k' b1, In (obj k' b1) oa /\ stream_body b1 (cipher d k' (e_zlib E (at_content a)))).
    { clear - Ha. induction ps as [|q ps IH]; intros k oa H []; destruct H as (o & os' & -> & (a' & b1 & b2 & Ea & -> & (S1 & _) & _) & H2).
      - subst q. rewrite Ha in Ea. injection Ea as <-. exists k, b1. split; [now left|exact S1].
      - destruct (IH _ _ H2 H0) as (k' & b & Hb & Sb). exists k', b. split; [|exact Sb]. apply in_or_app. now right. }
    destruct (G _ _ _ AO Hin) as (k' & b & Hb & Sb). apply H0. exists k', b. split; [|exact Sb]. rewrite Er. apply in_or_app. now left.
  - intros e He. destruct (RI e) as (e' & He' & Hid & S1 & S2 & S3); [apply KI; exact He|]. exists e'. apply KI in He'.
    split; [exact He'|]. split; [exact Hid|]. split; [auto|]. split; [eauto|]. intros Hi. apply H0. exact (S3 Hi).
  - intros e t He Ht. destruct RT as (k & HT). assert (Hin : In t (sort_tpls d)). { apply (sort_tpls_spec d (wf_order _ W) (wf_ptr _ W)). eauto. }
    apply In_nth_error in Hin as (i & Hi). destruct (HT i t Hi) as (body & X1 & X2). apply H0. eexists _, body. split; [exact X1|exact X2].
  - intros e He Hu. destruct (RF e) as (c & Ec & Hh); [apply KI; exact He|exact Hu|]. eauto.
  - intros e He Hu. destruct (RU e) as (U1 & U2 & gm & Eg & U3); [apply KI; exact He|exact Hu|]. split; [auto|]. split; [auto|]. eauto.
  - intros Hx. apply H0. exact (as_xmp _ _ _ _ _ _ A Hx).
Qed.
Print Assumptions C14_stream_lengths.

(** ** C15 Page tree lists each page once, in order *)
(** what a reader finds when the document lists the pages [l] *)
Definition lists_pages {E} (d : doc (e_num E)) (file : bytes) (l : list (page (e_num E))) (kids : list Z) : Prop :=
  page_tree file kids /\ NoDup kids /\ length kids = length l /\
  forall i pg, nth_error l i = Some pg -> exists k t, nth_error kids i = Some k /\ page_object file k t (k + 1) /\
    stream_in file (k + 1) (stored d (k + 1) (packed d (replace_aliases d (pg_content pg)))).
(** C15 holds when the current page is the last one, as it is unless SetPage went back *)
Lemma odd_from_nth k n i : (i < n)%nat -> nth_error (odd_from k n) i = Some (k + 2 * Z.of_nat i).
Proof.
  revert k i. induction n as [|n IH]; intros k i Hi; [lia|]. cbn [odd_from]. destruct i as [|i]; [cbn; f_equal; lia|].
  cbn [nth_error]. rewrite IH by lia. f_equal. lia.
Qed.
Lemma odd_from_len k n : length (odd_from k n) = n.
Proof. revert k. induction n as [|n IH]; intros k; [reflexivity|]. cbn. now rewrite IH. Qed.
Lemma odd_from_nodup n : forall k, NoDup (odd_from k n).
Proof.
  induction n as [|n IH]; intros k; [constructor|]. cbn [odd_from]. constructor; [|apply IH].
  assert (G : forall m j x, In x (odd_from j m) -> j <= x).
  { induction m as [|m IHm]; intros j x []; [lia|]. apply IHm in H. lia. }
  intros H. apply G in H. lia.
Qed.
Lemma listed {E} (d : doc (e_num E)) pre os ps oa :
  assembled d (pre +++ header d) (enddoc d (w_init pre)) os ps oa -> zlength (file_of d pre) < 10 ^ 10 -> 0 <= d_page d ->
  lists_pages d (file_of d pre) (firstn (Z.to_nat (d_page d)) (d_pages d)) (odd_from (3 + 2 * zlen ps) (Z.to_nat (d_page d))) /\
  (forall i pg, nth_error (firstn (Z.to_nat (d_page d)) (d_pages d)) i = Some pg ->
     exists t, page_object (file_of d pre) (3 + 2 * zlen ps + 2 * Z.of_nat i) t (3 + 2 * zlen ps + 2 * Z.of_nat i + 1) /\ dests_in d pg t).
Proof.
  intros A S Hp. destruct (as_pages _ _ _ _ _ _ A) as ((tab & PA) & Hp1). destruct (as_dpage _ _ _ _ _ _ A) as [Hle _].
  assert (Hlen : length (doc_pages d) = Z.to_nat (d_page d)) by (unfold doc_pages; apply firstn_length_le; unfold zlen in Hle; lia).
  split; [split; [|split; [apply odd_from_nodup|split]]|].
  - apply (lookup d _ _ _ _ _ A S) in Hp1. exists (tree_tail d). rewrite odd_from_len, Z2Nat.id by exact Hp. rewrite Hlen in Hp1.
    unfold pages_body in Hp1. rewrite <- ?app_assoc in Hp1. exact Hp1.
  - rewrite odd_from_len. fold (doc_pages d). now rewrite Hlen.
  - intros i pg Hi. destruct (PA i pg Hi) as (a & o & c & Eo & t & body & -> & _ & Sb & _).
    exists (3 + 2 * zlen ps + 2 * Z.of_nat i), t. split; [|split].
    + apply odd_from_nth. rewrite <- Hlen. apply nth_error_Some. unfold doc_pages. congruence.
    + apply (lookup d _ _ _ _ _ A S). rewrite Eo. apply in_or_app. right. now left.
    + rewrite <- cipher_stored. eapply (stream_lookup d _ _ _ _ _ A S _ body); [|exact Sb]. rewrite Eo. apply in_or_app. right. right. now left.
  - intros i pg Hi. destruct (PA i pg Hi) as (a & o & c & Eo & t & body & -> & D & Sb & _). exists t. split; [|exact D].
    apply (lookup d _ _ _ _ _ A S). rewrite Eo. apply in_or_app. right. now left.
Qed.

Theorem C15_page_tree_partial :
  forall (E : env) (d : doc (e_num E)) (pre : bytes),
    well_formed d -> finished d pre -> zlength (file_of d pre) < 10 ^ 10 ->
    d_page d = zlen (d_pages d) ->
    exists kids, lists_pages d (file_of d pre) (d_pages d) kids.
Proof.
  intros E d pre W F S Hp. destruct (enddoc_assembled d pre (well_formed_inputs d W) F) as (os & ps & oa & A).
  eexists. destruct (listed d pre os ps oa A S) as [L _]; [rewrite Hp; apply zlen_nonneg|].
  rewrite firstn_all2 in L; [exact L|]. unfold zlen in Hp. lia.
Qed.
Print Assumptions C15_page_tree_partial.

(** the general form: the pages up to the current page are listed, and no others *)
Theorem C15_pages_up_to_current :
  forall (E : env) (d : doc (e_num E)) (pre : bytes),
    well_formed d -> finished d pre -> zlength (file_of d pre) < 10 ^ 10 -> 0 <= d_page d ->
    exists kids, lists_pages d (file_of d pre) (firstn (Z.to_nat (d_page d)) (d_pages d)) kids.
Proof.
  intros E d pre W F S Hp. destruct (enddoc_assembled d pre (well_formed_inputs d W) F) as (os & ps & oa & A).
  eexists. destruct (listed d pre os ps oa A S Hp) as [L _]. exact L.
Qed.
Print Assumptions C15_pages_up_to_current.

(** after SetPage(1) the second page is not in the file: a document with two pages whose current page is
    page 1 is written with a page tree that lists one page, and the content of page 2 occurs nowhere *)
Definition doc_back : doc Z := doc0 [page0 (bs "first") []; page0 (bs "second") []] 1 [] [] [] [] None.
Theorem C15_refuted :
  finished (E := env0) doc_back [] /\ zlen (d_pages doc_back) = 2 /\
  (exists k, lists_pages (E := env0) doc_back (file_of (E := env0) doc_back []) [page0 (bs "first") []] [k]) /\
  containsb (bs "second") (file_of (E := env0) doc_back []) = false.
Proof.
  assert (F : finished (E := env0) doc_back []) by (split; vm_compute; reflexivity).
  assert (S : zlength (file_of (E := env0) doc_back []) < 10 ^ 10) by (vm_compute; reflexivity).
  split; [exact F|]. split; [reflexivity|]. split; [|vm_compute; reflexivity].
  destruct (C15_pages_up_to_current env0 doc_back [] (doc0_wf _ _ _ _ _ _ _) F S) as (kids & K); [discriminate|].
  change (firstn (Z.to_nat (d_page doc_back)) (d_pages doc_back)) with [page0 (bs "first") []] in K.
  assert (Hl : length kids = 1%nat) by apply K. destruct kids as [|k [|? ?]]; [discriminate Hl| |discriminate Hl]. exists k. exact K.
Qed.
Print Assumptions C15_refuted.

(** a document with two pages, read through the theorem *)
Definition doc_two : doc Z := doc0 [page0 (bs "first") []; page0 (bs "second") []] 2 [] [] [] [] None.
Example C15_ex : exists k1 k2 t1 t2,
  page_tree (file_of (E := env0) doc_two []) [k1; k2] /\ k1 <> k2 /\
  page_object (file_of (E := env0) doc_two []) k1 t1 (k1 + 1) /\ stream_in (file_of (E := env0) doc_two []) (k1 + 1) (bs "first") /\
  page_object (file_of (E := env0) doc_two []) k2 t2 (k2 + 1) /\ stream_in (file_of (E := env0) doc_two []) (k2 + 1) (bs "second").
Proof.
  destruct (C15_page_tree_partial env0 doc_two [] (doc0_wf _ _ _ _ _ _ _)) as (kids & T & N & L & H).
  { split; vm_compute; reflexivity. } { vm_compute; reflexivity. } { reflexivity. }
  destruct kids as [|k1 [|k2 [|? ?]]]; try discriminate L.
  destruct (H 0%nat _ eq_refl) as (x1 & t1 & E1 & P1 & S1). destruct (H 1%nat _ eq_refl) as (x2 & t2 & E2 & P2 & S2).
  injection E1 as <-. injection E2 as <-. exists k1, k2, t1, t2. split; [exact T|]. split; [|tauto].
  intros ->. inversion N as [|? ? X _]. apply X. now left.
Qed.

(** ** C16 Internal links and bookmarks point at the page the caller named *)
(** without attachments *)
Theorem C16_destinations_partial :
  forall (E : env) (d : doc (e_num E)) (pre : bytes),
    well_formed d -> finished d pre -> zlength (file_of d pre) < 10 ^ 10 ->
    d_page d = zlen (d_pages d) -> used_atts d = [] ->
    exists kids, page_tree (file_of d pre) kids /\
      (* a link on page i to a destination on page p *)
      (forall i pg lk p y, nth_error (d_pages d) i = Some pg -> In lk (pg_links pg) -> lk_link lk <> 0 ->
         at_ (d_links d) (lk_link lk) = Some (p, y) -> 1 <= p <= zlen (d_pages d) ->
         exists k kp t, nth_error kids i = Some k /\ nth_error kids (Z.to_nat (p - 1)) = Some kp /\
           page_object (file_of d pre) k t (k + 1) /\ occurs (dest kp) t) /\
      (* a bookmark on page p *)
      (forall o, In o (d_outlines d) -> 1 <= ou_page o <= zlen (d_pages d) ->
         exists k kp body, nth_error kids (Z.to_nat (ou_page o - 1)) = Some kp /\
           object_in (file_of d pre) k body /\ occurs (dest kp) body).
Proof.
  intros E d pre W F S Hp Ha. destruct (enddoc_assembled d pre (well_formed_inputs d W) F) as (os & ps & oa & A).
  destruct (listed d pre os ps oa A S) as [(T & ND & Ln & _) L]; [rewrite Hp; apply zlen_nonneg|].
  assert (Ef : firstn (Z.to_nat (d_page d)) (d_pages d) = d_pages d) by (apply firstn_all2; unfold zlen in Hp; lia).
  rewrite Ef in *.
  assert (Ep : ps = []). { destruct (as_att _ _ _ _ _ _ A) as (_ & _ & HP & _). destruct ps as [|q ps]; [reflexivity|]. destruct (proj1 (HP q) (or_introl eq_refl)) as [X _]. now rewrite Ha in X. }
  subst ps. change (3 + 2 * zlen (@nil Z)) with 3 in *. exists (odd_from 3 (Z.to_nat (d_page d))).
  assert (Nth : forall p, 1 <= p <= zlen (d_pages d) -> nth_error (odd_from 3 (Z.to_nat (d_page d))) (Z.to_nat (p - 1)) = Some (1 + 2 * p)).
  { intros p Hr. rewrite odd_from_nth by lia. f_equal. lia. }
  split; [exact T|]. split.
  - intros i pg lk p y Hi Hlk H0 Hd Hr. destruct (L i pg Hi) as (t & P & D).
    exists (3 + 2 * Z.of_nat i), (1 + 2 * p), t. split; [|split; [now apply Nth|split; [exact P|]]].
    + apply odd_from_nth. assert (i < length (d_pages d))%nat by (apply nth_error_Some; congruence). unfold zlen in Hp. lia.
    + exact (D lk p y Hlk H0 Hd).
  - intros o Hin Hr. destruct (as_outl _ _ _ _ _ _ A) as (n & OW & _).
    assert (Hne : d_outlines d <> []) by (intros X; now rewrite X in Hin).
    destruct (OW Hne) as [H1 _]. apply In_nth_error in Hin as (i & Hi).
    assert (Hx : exists x, nth_error (fst (link_outlines (map (@ou_level _) (d_outlines d)))) i = Some x).
    { assert (Hl : length (fst (link_outlines (map (@ou_level _) (d_outlines d)))) = length (d_outlines d)).
      { unfold link_outlines. rewrite link_loop_length, repeat_length, map_length. reflexivity. }
      destruct (nth_error (fst (link_outlines (map (@ou_level _) (d_outlines d)))) i) eqn:Ex; [eauto|]. apply nth_error_None in Ex.
      assert (i < length (d_outlines d))%nat by (apply nth_error_Some; congruence). lia. }
    destruct Hx as (x & Hx). destruct (H1 i o x Hi Hx) as (body & Hb & (t & y & Eb & _)).
    exists (n + Z.of_nat i), (1 + 2 * ou_page o), body. split; [now apply Nth|]. split; [now apply (lookup d _ _ _ _ _ A S)|].
    rewrite Eb. cbn [fst]. unfold dest.
    apply occurs_app_r. apply occurs_app_r. apply occurs_app_r. apply occurs_app_l.
    exists [], (bs " /XYZ 0 " +++ e_fmt2 E y +++ bs " null]"). cbn [app]. rewrite <- ?app_assoc. reflexivity.
Qed.
Print Assumptions C16_destinations_partial.
