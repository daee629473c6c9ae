(** Properties of the file written by Output, continued: C16 (refuted part), C17, C32, C33, C37.
    The concrete environment and documents are those of DocProps. *)
From Verif Require Import Base TextModel TextSpec TextProofs Crypto DocModel DocSpec DocSort DocProofs DocWalk DocParts DocRes DocRes2 DocEnd DocXref DocLayout DocFile OutlineSpec DocOutline DocBack DocProps.
From Coq Require Import String Permutation.
Open Scope Z_scope.
Notation length := List.length.
Local Notation "a +++ b" := (List.app a b) (at level 60, right associativity, only parsing).

(** ** Deciding [object_in] for a concrete file, given the position of its table *)
Definition check_object (file : bytes) (x k : Z) (body : bytes) : bool :=
  let tail := bs "startxref" +++ eol +++ dec x +++ eol +++ bs "%%EOF" +++ eol in
  beqb (skipn (length file - length tail) file) tail && (1 <=? k) &&
  match read_table (skipn (Z.to_nat x) file) with
  | Some (entries, _) =>
      match nth_error entries (Z.to_nat k) with
      | Some (InUse off 0) => (0 <=? off) && prefixb (object_text k body) (skipn (Z.to_nat off) file)
      | _ => false
      end
  | None => false
  end.
Lemma check_object_in file x k body : check_object file x k body = true -> object_in file k body.
Proof.
  unfold check_object. set (tail := bs "startxref" +++ eol +++ dec x +++ eol +++ bs "%%EOF" +++ eol).
  intros H. apply andb_prop in H as [H H1]. apply andb_prop in H as [H H2].
  destruct (read_table (skipn (Z.to_nat x) file)) as [[entries rest]|] eqn:Er; [|discriminate H1].
  destruct (nth_error entries (Z.to_nat k)) as [[off gen|? ?]|] eqn:En; [|discriminate H1|discriminate H1].
  destruct gen; [|discriminate H1|discriminate H1]. apply andb_prop in H1 as [Ho Hp].
  exists x, entries, rest, off. split; [|split; [exact Er|split; [lia|split; [exact En|split; [lia|]]]]].
  - exists (firstn (length file - length tail) file). apply beqb_eq in H.
    rewrite <- (firstn_skipn (length file - length tail) file) at 1. rewrite H. reflexivity.
  - apply prefixb_spec in Hp. exact Hp.
Qed.
(** position of the table, for the concrete files below *)
Fixpoint find_xref (s : bytes) (i : Z) : Z :=
  if prefixb (bs "xref" +++ eol) s then i else match s with [] => 0 | _ :: t => find_xref t (i + 1) end.
(** what object k of a concrete file contains after the bytes [p] *)
Fixpoint until (e s : bytes) : bytes := if prefixb e s then [] else match s with [] => [] | c :: t => c :: until e t end.
Fixpoint after (e s : bytes) : bytes := if prefixb e s then skipn (length e) s else match s with [] => [] | _ :: t => after e t end.
Definition rest_of (file : bytes) (k : Z) (p : bytes) : bytes :=
  until (bs "endobj" +++ eol) (after (eol +++ dec k +++ bs " 0 obj" +++ eol +++ p) file).

(** ** C16, continued: with an attachment, destinations name the wrong object *)
(** one page with a link to page 1, and one attachment of the document *)
Definition link0 : link Z := {| lk_x := 1; lk_y := 2; lk_w := 3; lk_h := 4; lk_link := 1; lk_uri := [] |}.
Definition att0 : attachment := {| at_content := bs "data"; at_name := bs "n"; at_desc := bs "d"; at_objnum := 0 |}.
Definition doc_att : doc Z := doc0 [page0 (bs "first") [link0]] 1 [att0] [0] [(0, 0); (1, 10)] [] None.
Theorem C16_refuted :
  finished (E := env0) doc_att [] /\
  (* the only page of the page tree is object 5 *)
  page_tree (file_of (E := env0) doc_att []) [5] /\
  (* its link to page 1 has its destination in object 3 *)
  (exists t, page_object (file_of (E := env0) doc_att []) 5 t 6 /\ containsb (dest 3) t = true /\ containsb (dest 5) t = false) /\
  (* which is the embedded file *)
  (exists t, object_in (file_of (E := env0) doc_att []) 3 (bs "<< /Type /EmbeddedFile " +++ t)) /\
  (* and so is the page the document opens at *)
  (exists k t, object_in (file_of (E := env0) doc_att []) k (bs "<<" +++ eol +++ bs "/Type /Catalog" +++ eol +++ t) /\
     containsb (bs "/OpenAction [3 0 R") t = true).
Proof.
  split; [split; vm_compute; reflexivity|].
  pose (x := find_xref (file_of (E := env0) doc_att []) 0).
  split; [|split; [|split]].
  - exists (rest_of (file_of (E := env0) doc_att []) 1 (bs "<</Type /Pages" +++ eol +++ bs "/Kids [" +++ refs [5] +++ bs "]" +++ eol +++ bs "/Count 1" +++ eol)).
    apply (check_object_in _ x). vm_compute. reflexivity.
  - pose (t := rest_of (file_of (E := env0) doc_att []) 5 (bs "<</Type /Page" +++ eol +++ bs "/Parent 1 0 R" +++ eol)).
    exists (firstn (length t - length (bs "/Contents 6 0 R>>" +++ eol)) t). split; [|vm_compute; split; reflexivity].
    apply (check_object_in _ x). vm_compute. reflexivity.
  - exists (rest_of (file_of (E := env0) doc_att []) 3 (bs "<< /Type /EmbeddedFile ")). apply (check_object_in _ x). vm_compute. reflexivity.
  - exists 9, (rest_of (file_of (E := env0) doc_att []) 9 (bs "<<" +++ eol +++ bs "/Type /Catalog" +++ eol)).
    split; [apply (check_object_in _ x); vm_compute; reflexivity|vm_compute; reflexivity].
Qed.
Print Assumptions C16_refuted.

(** ** C17 Bookmarks form the outline tree the caller described *)
Definition levels {num} (l : list (outline num)) : list Z := map (@ou_level num) l.
Theorem C17_outline_tree :
  forall (E : env) (d : doc (e_num E)) (pre : bytes),
    well_formed d -> finished d pre -> zlength (file_of d pre) < 10 ^ 10 ->
    d_outlines d <> [] -> well_nested (levels (d_outlines d)) ->
    let ls := levels (d_outlines d) in
    let root := count_items ls in
    (* item i is object base + i, the root object base + root *)
    exists base,
      (forall i o, nth_error (d_outlines d) i = Some o ->
         exists parent prev next first last title t,
           object_in (file_of d pre) (base + Z.of_nat i)
             (bs "<</Title " +++ title +++ eol +++ bs "/Parent " +++ dec (base + parent) +++ bs " 0 R" +++ eol +++
              opt_ref (bs "/Prev ") base prev +++ opt_ref (bs "/Next ") base next +++
              opt_ref (bs "/First ") base first +++ opt_ref (bs "/Last ") base last +++ t) /\
           (* the title is the caller's, encrypted if the document is *)
           read_string title = Some (stored d (base + Z.of_nat i) (ou_text o), []) /\
           is_parent ls (Z.of_nat i) parent /\
           link_to (is_prev ls (Z.of_nat i)) prev /\ link_to (fun j => is_prev ls j (Z.of_nat i)) next /\
           link_to (is_first ls (Z.of_nat i)) first /\ link_to (is_last ls (Z.of_nat i)) last) /\
      (exists first last, is_first ls root first /\ is_last ls root last /\
         object_in (file_of d pre) (base + root)
           (bs "<</Type /Outlines /First " +++ dec (base + first) +++ bs " 0 R" +++ eol +++
            bs "/Last " +++ dec (base + last) +++ bs " 0 R>>" +++ eol)) /\
      (exists k t, object_in (file_of d pre) k (bs "<<" +++ eol +++ bs "/Type /Catalog" +++ eol +++ t) /\
         occurs (bs "/Outlines " +++ dec (base + root) +++ bs " 0 R") t).
Proof.
  intros E d pre W F S Hne Hw ls root. destruct (enddoc_assembled d pre (well_formed_inputs d W) F) as (os & ps & oa & A).
  destruct (as_outl _ _ _ _ _ _ A) as (n & OW & tc & Hc & Oc). destruct (OW Hne) as [H1 H2]. specialize (Oc Hne).
  destruct (outlines_linked ls Hw) as (ns & lru & El & Hlen & Hn & Hr).
  fold (levels (d_outlines d)) in H1, H2. fold ls in H1, H2. rewrite El in H1, H2. cbn [fst snd] in H1, H2.
  assert (Hz : zlen (d_outlines d) = root) by (unfold root, count_items, ls, levels, zlen; now rewrite map_length).
  rewrite Hz in *. exists n. split; [|split].
  - intros i o Hi. assert (Hx : exists x, nth_error ns i = Some x).
    { destruct (nth_error ns i) eqn:Ex; [eauto|]. apply nth_error_None in Ex. rewrite Hlen in Ex. unfold ls, levels in Ex. rewrite map_length in Ex.
      assert (i < length (d_outlines d))%nat by (apply nth_error_Some; congruence). lia. }
    destruct Hx as (x & Hx). destruct (H1 i o x Hi Hx) as (body & Hb & (t & y & Eb & Ht)).
    assert (Hat : at_ ns (Z.of_nat i) = Some x). { unfold at_. replace (Z.of_nat i <? 0) with false by lia. now rewrite Nat2Z.id. }
    destruct (Hn _ _ Hat) as (_ & P1 & P2 & P3 & P4 & P5).
    exists (on_parent x), (on_prev x), (on_next x), (on_first x), (on_last x), t,
      ((bs "/Dest [" +++ dec (1 + 2 * ou_page o) +++ bs " 0 R /XYZ 0 " +++ e_fmt2 E y +++ bs " null]") +++ nl +++ bs "/Count 0>>" +++ nl).
    split; [|split; [|tauto]].
    + apply (lookup d _ _ _ _ _ A S) in Hb. rewrite Eb in Hb. cbn [fst snd] in Hb. unfold outline_links in Hb.
      assert (G : forall key z, ref_line key n z = opt_ref key n z).
      { intros key z. unfold ref_line, opt_ref. destruct (z =? -1); [reflexivity|]. change eol with nl. rewrite <- ?app_assoc. reflexivity. }
      rewrite !G in Hb. change eol with nl. rewrite <- ?app_assoc in Hb. rewrite <- ?app_assoc. exact Hb.
    + pose (w := {| w_buf := []; w_n := n + Z.of_nat i; w_offs := []; w_tab := []; w_cip := None; w_err := false; w_panic := false |}).
      rewrite (Ht w); [|intros m st X; discriminate X|reflexivity]. rewrite (textstr_fresh d _ w) by (intros m st X; discriminate X).
      cbn [fst w_n w]. rewrite cipher_stored. rewrite <- (app_nil_r (bs "(" +++ _)). apply textstring_roundtrip.
  - exists 0, (lru_get 0 lru). assert (Hl : ls <> []). { unfold ls, levels. intros X. apply map_eq_nil in X. contradiction. }
    destruct (Hr Hl) as [R1 R2]. split; [exact R1|]. split; [exact R2|]. apply (lookup d _ _ _ _ _ A S) in H2.
    unfold outline_root in H2. rewrite Z.add_0_r. change eol with nl. rewrite <- ?app_assoc in H2. exact H2.
  - exists (w_n (enddoc d (w_init pre))), (bs "/Pages 1 0 R" +++ nl +++ tc). split.
    + exact (lookup d _ _ _ _ _ A S _ _ Hc).
    + do 2 apply occurs_app_r. exact Oc.
Qed.
Print Assumptions C17_outline_tree.

(** three bookmarks, the second inside the first *)
Definition mark0 (s : bytes) (l : Z) : outline Z := {| ou_text := s; ou_level := l; ou_page := 1; ou_y := 0 |}.
Definition doc_marks : doc Z := doc0 [page0 (bs "first") []] 1 [] [] [] [mark0 (bs "A") 0; mark0 (bs "A1") 1; mark0 (bs "B") 0] None.
Example C17_ex : finished (E := env0) doc_marks [] /\ well_nested (levels (d_outlines doc_marks)) /\
  exists t, object_in (file_of (E := env0) doc_marks []) 6
    (bs "<</Title (A1)" +++ eol +++ bs "/Parent 5 0 R" +++ eol +++ bs "/Dest [3 0 R" +++ t).
Proof.
  split; [split; vm_compute; reflexivity|]. split.
  - split; [reflexivity|]. unfold item, count_items. cbn [levels d_outlines doc_marks doc0 map length]. intros i H1 H2.
    assert (Hi : 0 <= i < 3) by exact H1. assert (Hj : 0 <= i + 1 < 3) by exact H2.
    assert (i = 0 \/ i = 1) as [-> | ->] by lia; vm_compute; split; discriminate.
  - exists (rest_of (file_of (E := env0) doc_marks []) 6 (bs "<</Title (A1)" +++ eol +++ bs "/Parent 5 0 R" +++ eol +++ bs "/Dest [3 0 R")).
    apply (check_object_in _ (find_xref (file_of (E := env0) doc_marks []) 0)). vm_compute. reflexivity.
Qed.

(** ** C32 Attachments are embedded *)
(** attachments never used in another document before ([at_objnum a = 0]): each is embedded exactly once, in
    objects 3, 5, ... before the first page, with its compressed content, digest and size, and a file
    specification that refers to it.  Missing for the full property: see C32_refuted *)
Theorem C32_embedded_partial :
  forall (E : env) (d : doc (e_num E)) (pre : bytes),
    well_formed d -> finished d pre -> zlength (file_of d pre) < 10 ^ 10 ->
    exists ps,
      NoDup ps /\
      (forall p, In p ps <-> (In p (d_docatts d) \/ exists pg an, In pg (d_pages d) /\ In an (pg_annots pg) /\ an_att an = p) /\
                             exists a, at_ (d_atts d) p = Some a /\ at_objnum a = 0) /\
      (forall i p, nth_error ps i = Some p -> exists a body spec,
         at_ (d_atts d) p = Some a /\
         object_in (file_of d pre) (3 + 2 * Z.of_nat i) body /\
         stream_body body (stored d (3 + 2 * Z.of_nat i) (e_zlib E (at_content a))) /\
         occurs (bs "/Filter /FlateDecode /Params << /CheckSum <" +++ e_hex E (e_md5 E (at_content a)) +++ bs "> /Size " +++ dec (zlen (at_content a))) body /\
         object_in (file_of d pre) (4 + 2 * Z.of_nat i) spec /\
         occurs (bs "/EF << /F " +++ dec (3 + 2 * Z.of_nat i) +++ bs " 0 R >>") spec) /\
      (* the next object after them is the first page *)
      (1 <= d_page d -> exists kids, page_tree (file_of d pre) ((3 + 2 * zlen ps) :: kids)).
Proof.
  intros E d pre W F S. destruct (enddoc_assembled d pre (well_formed_inputs d W) F) as (os & ps & oa & A).
  destruct (as_att _ _ _ _ _ _ A) as (AO & ND & HP & HN & r & Er). exists ps. split; [exact ND|]. split; [|split].
  - intros p. rewrite HP. unfold used_atts. rewrite in_app_iff, in_concat. unfold att_num. cbn [w_tab find_slot]. split.
    + intros [Hu Hz].
      assert (Hex : at_ (d_atts d) p <> None). { apply HN. unfold used_atts. rewrite in_app_iff, in_concat. exact Hu. }
      destruct (at_ (d_atts d) p) as [a|]; [|contradiction].
      split; [|eauto]. destruct Hu as [Hu|(l & Hl & Hin)]; [now left|]. right. apply in_map_iff in Hl as (pg & <- & Hpg).
      apply in_map_iff in Hin as (an & Ean & Han). eauto.
    + intros [Hu (a & Ha & Hz)]. rewrite Ha. split; [|exact Hz]. destruct Hu as [Hu|(pg & an & Hpg & Han & <-)]; [now left|].
      right. exists (map (@an_att _) (pg_annots pg)). split; [apply in_map_iff; eauto|apply in_map; exact Han].
  - assert (G : forall ps k oa i p, att_objs d k ps oa -> nth_error ps i = Some p -> exists a b1 b2, at_ (d_atts d) p = Some a /\
      In (obj (k + 2 * Z.of_nat i) b1) oa /\ In (obj (k + 2 * Z.of_nat i + 1) b2) oa /\
      (stream_body b1 (cipher d (k + 2 * Z.of_nat i) (e_zlib E (at_content a))) /\ occurs (file_params (E := E) (at_content a)) b1) /\
      occurs (bs "/EF << /F " +++ dec (k + 2 * Z.of_nat i) +++ bs " 0 R >>") b2).
    { clear. induction ps as [|q ps IH]; intros k oa i p H Hi; [destruct i; discriminate Hi|].
      destruct H as (o & os' & -> & (a & b1 & b2 & Ea & -> & S1 & S2) & H2). destruct i as [|i].
      - injection Hi as <-. rewrite Z.add_0_r. exists a, b1, b2. split; [exact Ea|]. split; [now left|]. split; [right; now left|]. tauto.
      - cbn [nth_error] in Hi. destruct (IH _ _ _ _ H2 Hi) as (a' & c1 & c2 & X1 & X2 & X3 & X4 & X5).
        replace (k + 2 * Z.of_nat (Datatypes.S i)) with (k + 2 + 2 * Z.of_nat i) by lia. exists a', c1, c2. split; [exact X1|].
        split; [right; right; exact X2|]. split; [right; right; exact X3|]. tauto. }
    intros i p Hi. destruct (G _ _ _ _ _ AO Hi) as (a & b1 & b2 & X1 & X2 & X3 & (X4 & X5) & X6).
    exists a, b1, b2. split; [exact X1|]. split. { apply (lookup d _ _ _ _ _ A S). rewrite Er. apply in_or_app. now left. }
    split; [rewrite <- cipher_stored; exact X4|]. split.
    { destruct X5 as (u & v & ->). unfold file_params. apply occurs_app_r, occurs_app_l.
      exists (bs " "), (bs " >>"). change (bs " /Filter /FlateDecode /Params << /CheckSum <") with (bs " " +++ bs "/Filter /FlateDecode /Params << /CheckSum <"). rewrite <- ?app_assoc. reflexivity. }
    split; [|exact X6]. replace (4 + 2 * Z.of_nat i) with (3 + 2 * Z.of_nat i + 1) by lia. apply (lookup d _ _ _ _ _ A S). rewrite Er. apply in_or_app. now left.
  - intros Hp. destruct (listed d pre os ps oa A S) as [(T & _) _]; [lia|].
    replace (Z.to_nat (d_page d)) with (Datatypes.S (Z.to_nat (d_page d - 1))) in T by lia. cbn [odd_from] in T. eexists. exact T.
Qed.
Print Assumptions C32_embedded_partial.

(** the same attachment in two documents: writing the first leaves object number 4 in it, and the second
    document does not contain it, although its catalog refers to object 4, which is that document's page content *)
Definition doc_att2 (a : attachment) : doc Z := doc0 [page0 (bs "first") []] 1 [a] [0] [] [] None.
Definition after_output {E} (d : doc (e_num E)) (p : Z) (a : attachment) : attachment :=
  {| at_content := at_content a; at_name := at_name a; at_desc := at_desc a; at_objnum := att_num d p (enddoc d (w_init [])) |}.
Theorem C32_refuted :
  let first := doc_att2 att0 in
  let second := doc_att2 (after_output (E := env0) first 0 att0) in
  finished (E := env0) first [] /\ finished (E := env0) second [] /\
  containsb (e_zlib env0 (at_content att0)) (file_of (E := env0) first []) = true /\
  containsb (e_zlib env0 (at_content att0)) (file_of (E := env0) second []) = false /\
  containsb (bs "EmbeddedFile /") (file_of (E := env0) second []) = false /\
  stream_in (file_of (E := env0) second []) 4 (bs "first") /\
  exists k t, object_in (file_of (E := env0) second []) k (bs "<<" +++ eol +++ bs "/Type /Catalog" +++ eol +++ t) /\
    containsb (bs "(Attachement1) 4 0 R") t = true.
Proof.
  cbv zeta. split; [split; vm_compute; reflexivity|]. split; [split; vm_compute; reflexivity|].
  split; [vm_compute; reflexivity|]. split; [vm_compute; reflexivity|]. split; [vm_compute; reflexivity|]. split.
  - exists (bs "<</Length 5>>" +++ eol +++ bs "stream" +++ eol +++ bs "first" +++ eol +++ bs "endstream" +++ eol). split.
    + apply (check_object_in _ (find_xref (file_of (E := env0) (doc_att2 (after_output (E := env0) (doc_att2 att0) 0 att0)) []) 0)). vm_compute. reflexivity.
    + exists (bs "<</Length 5>>" +++ eol). split; [rewrite <- ?app_assoc; reflexivity|vm_compute; reflexivity].
  - exists 7, (rest_of (file_of (E := env0) (doc_att2 (after_output (E := env0) (doc_att2 att0) 0 att0)) []) 7 (bs "<<" +++ eol +++ bs "/Type /Catalog" +++ eol)).
    split; [|vm_compute; reflexivity].
    apply (check_object_in _ (find_xref (file_of (E := env0) (doc_att2 (after_output (E := env0) (doc_att2 att0) 0 att0)) []) 0)). vm_compute. reflexivity.
Qed.
Print Assumptions C32_refuted.
Example C32_ex : well_formed (E := env0) (doc_att2 att0) /\ finished (E := env0) (doc_att2 att0) [] /\
  exists a, at_ (d_atts (doc_att2 att0)) 0 = Some a /\ In 0 (d_docatts (doc_att2 att0)) /\ at_objnum a = 0.
Proof. split; [apply doc0_wf|]. split; [split; vm_compute; reflexivity|]. exists att0. cbn. auto. Qed.

(** ** C33 Encrypted streams and strings decrypt to the original *)
(** every stream of the file, and every bookmark title, decrypts to what was given.  Missing for the full
    property: strings that are not the first string or stream of their object, see C33_refuted *)
Theorem C33_decrypt_partial :
  forall (E : env) (d : doc (e_num E)) (pre : bytes) (pr : protect),
    well_formed d -> finished d pre -> zlength (file_of d pre) < 10 ^ 10 -> d_protect d = Some pr ->
    let decrypt k s := std_crypt (e_md5 E) (Some (pr_key pr)) k s in
    let reads data := exists k s, stream_in (file_of d pre) k s /\ decrypt k s = data in
    (forall pg, In pg (firstn (Z.to_nat (d_page d)) (d_pages d)) -> reads (packed d (replace_aliases d (pg_content pg)))) /\
    (forall p a, In p (used_atts d) -> at_ (d_atts d) p = Some a -> at_objnum a = 0 -> reads (e_zlib E (at_content a))) /\
    (forall e, In e (d_images d) -> exists e', In e' (d_images d) /\ im_id (snd e') = im_id (snd e) /\ reads (im_data (snd e')) /\
       (forall c m, im_smask (snd e') = Some (c :: m) -> reads (c :: m)) /\
       (im_cs (snd e') = bs "Indexed" -> reads (packed d (im_pal (snd e'))))) /\
    (forall e t, In e (d_tpls d) -> within t (snd e) -> reads (packed d (tpl_content t))) /\
    (forall e, In e (d_files d) -> ff_utf8 (snd e) = false -> exists content, ff_content (snd e) = Some content /\
       reads (fontfile_data (fst e) (snd e) content)) /\
    (forall e, In e (d_fonts d) -> fo_type (snd e) = FUtf8 ->
       reads (e_to_unicode E) /\ reads (e_zlib E (fo_utf8 (snd e))) /\ exists gm, gid_map (fo_gids (snd e)) gid_zero = Some gm /\ reads (e_zlib E gm)) /\
    (d_xmp d <> [] -> reads (d_xmp d)) /\
    (well_nested (levels (d_outlines d)) -> forall o, In o (d_outlines d) -> exists k title s t,
       object_in (file_of d pre) k (bs "<</Title " +++ title +++ eol +++ t) /\ read_string title = Some (s, []) /\ decrypt k s = ou_text o).
Proof.
  intros E d pre pr W F S Hpr decrypt reads.
  assert (D : forall k s, decrypt k (stored d k s) = s).
  { intros k s. unfold decrypt, stored. rewrite Hpr. apply std_crypt_invol. }
  assert (G : forall data, (exists k, stream_in (file_of d pre) k (stored d k data)) -> reads data).
  { intros data (k & Hk). exists k, (stored d k data). split; [exact Hk|apply D]. }
  destruct (C14_stream_lengths E d pre W F S) as (P1 & P2 & P3 & P4 & P5 & P6 & P7).
  split; [|split; [|split; [|split; [|split; [|split; [|split]]]]]].
  - intros pg H. apply G. auto.
  - intros p a H1 H2 H3. apply G. eauto.
  - intros e He. destruct (P3 e He) as (e' & X1 & X2 & X3 & X4 & X5). exists e'. split; [exact X1|]. split; [exact X2|]. split; [auto|]. split; [|auto].
    intros c m Hm. apply G. eauto.
  - intros e t H1 H2. apply G. eauto.
  - intros e H1 H2. destruct (P5 e H1 H2) as (c & X1 & X2). eauto.
  - intros e H1 H2. destruct (P6 e H1 H2) as (X1 & X2 & gm & X3 & X4). split; [auto|]. split; [auto|]. eauto.
  - auto.
  - intros Hw o Ho. assert (Hne : d_outlines d <> []) by (intros X; rewrite X in Ho; destruct Ho).
    destruct (C17_outline_tree E d pre W F S Hne Hw) as (base & H & _). apply In_nth_error in Ho as (i & Hi).
    destruct (H i o Hi) as (parent & prev & next & first & last & title & t & X1 & X2 & _).
    eexists _, title, _, _. split; [exact X1|]. split; [exact X2|]. apply D.
Qed.
Print Assumptions C33_decrypt_partial.

(** the second string of the information dictionary does not decrypt, with the MD5 digest of RFC 1321 *)
Definition prot0 : protect := {| pr_key := [1; 2; 3; 4; 5]; pr_o := bs "o"; pr_u := bs "u"; pr_p := -44 |}.
Definition doc_prot : doc Z := doc0 [page0 (bs "first") []] 1 [] [] [] [mark0 (bs "A") 0] (Some prot0).
Theorem C33_refuted :
  finished (E := env0) doc_prot [] /\
  exists k body a lit b s,
    object_in (file_of (E := env0) doc_prot []) k body /\
    body = a +++ bs "/CreationDate " +++ lit +++ b /\ read_string lit = Some (s, []) /\
    std_crypt md5_sum (Some (pr_key prot0)) k s <> d_created doc_prot.
Proof.
  split; [split; vm_compute; reflexivity|].
  pose (k := 9). pose (body := rest_of (file_of (E := env0) doc_prot []) k []).
  pose (a := until (bs "/CreationDate ") body). pose (r := after (bs "/CreationDate ") body).
  pose (lit := until eol r). 
  exists k, body, a, lit, (skipn (length lit) r).
  exists (match read_string lit with Some (s, _) => s | None => [] end).
  split; [apply (check_object_in _ (find_xref (file_of (E := env0) doc_prot []) 0)); vm_compute; reflexivity|].
  split; [vm_compute; reflexivity|]. split; [vm_compute; reflexivity|]. vm_compute. discriminate.
Qed.
Print Assumptions C33_refuted.
Example C33_ex : well_formed (E := env0) doc_prot /\ stream_in (file_of (E := env0) doc_prot []) 4 (stored (E := env0) doc_prot 4 (bs "first")) /\
  stored (E := env0) doc_prot 4 (bs "first") <> bs "first".
Proof.
  split; [apply doc0_wf|]. split; [|vm_compute; discriminate].
  pose (body := rest_of (file_of (E := env0) doc_prot []) 4 []). exists body. split.
  - apply (check_object_in _ (find_xref (file_of (E := env0) doc_prot []) 0)). vm_compute. reflexivity.
  - exists (bs "<</Length 5>>" +++ eol). split; vm_compute; reflexivity.
Qed.

(** ** C37 Templates are written after the templates they use *)
Theorem C37_template_order :
  forall (E : env) (d : doc (e_num E)) (pre : bytes),
    well_formed d -> finished d pre -> zlength (file_of d pre) < 10 ^ 10 ->
    exists base order,
      (* the templates of the document and the ones they include, directly or not, each once *)
      NoDup order /\ (forall t, In t order <-> exists e, In e (d_tpls d) /\ within t (snd e)) /\
      (* the i-th is object base + i *)
      (forall i t, nth_error order i = Some t ->
         stream_in (file_of d pre) (base + Z.of_nat i) (stored d (base + Z.of_nat i) (packed d (tpl_content t)))) /\
      (* and comes after the ones it includes *)
      (forall i t s, nth_error order i = Some t -> In s (tpl_subs t) -> exists j, (j < i)%nat /\ nth_error order j = Some s).
Proof.
  intros E d pre W F S. destruct (enddoc_assembled d pre (well_formed_inputs d W) F) as (os & ps & oa & A).
  destruct (as_res _ _ _ _ _ _ A) as [_ _ (k & HT)].
  destruct (sort_tpls_spec d (wf_order _ W) (wf_ptr _ W)) as (H1 & H2 & H3).
  exists k, (sort_tpls d). split; [exact H2|]. split; [exact H1|]. split.
  - intros i t Hi. destruct (HT i t Hi) as (body & Hb & Sb). rewrite <- cipher_stored. exact (stream_lookup d _ _ _ _ _ A S _ _ _ Hb Sb).
  - intros i t s Hi Hs. apply nth_error_split in Hi as (a & b & Eo & Hl). pose proof (H3 _ _ _ _ Eo Hs) as Hin.
    apply In_nth_error in Hin as (j & Hj). assert (j < length a)%nat by (apply nth_error_Some; congruence). exists j. split; [lia|].
    rewrite Eo. now rewrite nth_error_app1.
Qed.
Print Assumptions C37_template_order.

(** two templates of a document, the first registered including the second *)
Definition tin : tpl Z := Tpl 11 (bs "t1") 0 0 false 10 10 (bs "inner") [] [].
Definition tout : tpl Z := Tpl 12 (bs "t2") 0 0 false 10 10 (bs "outer") [] [tin].
Definition doc_tpl : doc Z :=
  let d := doc0 [page0 (bs "first") []] 1 [] [] [] [] None in {|
  d_pages := d_pages d; d_page := d_page d; d_k := d_k d; d_h := d_h d; d_defw := d_defw d; d_defh := d_defh d; d_links := d_links d;
  d_alias := d_alias d; d_aliasnb := d_aliasnb d; d_atts := d_atts d; d_docatts := d_docatts d; d_version := d_version d; d_blendmap := d_blendmap d;
  d_compress := d_compress d; d_sort := d_sort d; d_gsort := d_gsort d; d_protect := d_protect d; d_layers := d_layers d; d_pane := d_pane d;
  d_blends := d_blends d; d_grads := d_grads d; d_spots := d_spots d; d_diffs := d_diffs d; d_files := d_files d; d_fonts := d_fonts d;
  d_images := d_images d; d_tpls := [(bs "t1", tout); (bs "t2", tin)];
  d_impobjs := d_impobjs d; d_imptpls := d_imptpls d; d_js := d_js d; d_xmp := d_xmp d; d_outlines := d_outlines d;
  d_producer := d_producer d; d_title := d_title d; d_subject := d_subject d; d_author := d_author d; d_keywords := d_keywords d; d_creator := d_creator d;
  d_created := d_created d; d_modified := d_modified d; d_zoom := d_zoom d; d_layout := d_layout d; d_pagesizes := d_pagesizes d |}.
Lemma within_out t : within t tout -> t = tout \/ t = tin.
Proof.
  intros H. inversion H as [|? u ? Hu Hw]; subst; [now left|]. destruct Hu as [<-|[]]. right.
  inversion Hw as [|? ? ? Hu' _]; subst; [reflexivity|destruct Hu'].
Qed.
Lemma within_in t : within t tin -> t = tin.
Proof. intros H. inversion H as [|? u ? Hu Hw]; subst; [reflexivity|]. destruct Hu. Qed.
Example C37_ex : well_formed (E := env0) doc_tpl /\ finished (E := env0) doc_tpl [] /\
  stream_in (file_of (E := env0) doc_tpl []) 5 (bs "inner") /\ stream_in (file_of (E := env0) doc_tpl []) 6 (bs "outer").
Proof.
  assert (Pt : forall t : tpl (e_num env0), t = tout \/ t = tin -> plain (tpl_id t) /\ forall i, In i (tpl_images t) -> plain (im_id (snd i))).
  { intros t [-> | ->]; (split; [|intros i []]); apply plain_digits; repeat constructor; discriminate. }
  assert (Wt : forall e (t : tpl (e_num env0)), In e (d_tpls doc_tpl) -> within t (snd e) -> t = tout \/ t = tin).
  { intros e t [<-|[<-|[]]] H; [now apply within_out|right; now apply within_in]. }
  assert (B : forall k c p, check_object (file_of (E := env0) doc_tpl []) (find_xref (file_of (E := env0) doc_tpl []) 0) k
     (rest_of (file_of (E := env0) doc_tpl []) k []) = true ->
     rest_of (file_of (E := env0) doc_tpl []) k [] = p +++ bs "stream" +++ eol +++ c +++ eol +++ bs "endstream" +++ eol ->
     declared_length p = Some (zlength c) -> stream_in (file_of (E := env0) doc_tpl []) k c).
  { intros k c p H1 H2 H3. eexists. split; [eapply check_object_in; exact H1|]. exists p. split; [exact H2|exact H3]. }
  split; [|split; [split; vm_compute; reflexivity|]].
  - constructor; try (intros; contradiction).
    + reflexivity.
    + apply env0_fmt.
    + intros e t He Hw. apply Pt. eauto.
    + intros e1 e2 a b H1 H2 Ha Hb. destruct (Wt _ _ H1 Ha) as [-> | ->], (Wt _ _ H2 Hb) as [-> | ->]; try reflexivity; intros X; discriminate X.
  - split.
    + apply (B 5 (bs "inner") (until (bs "stream") (rest_of (file_of (E := env0) doc_tpl []) 5 []))); vm_compute; reflexivity.
    + apply (B 6 (bs "outer") (until (bs "stream") (rest_of (file_of (E := env0) doc_tpl []) 6 []))); vm_compute; reflexivity.
Qed.
