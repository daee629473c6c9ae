(** C95: the reader gets the boxes of every page. *)
From Verif Require Import Base TextModel TextSpec TextProofs Crypto DocModel DocSpec DocSort DocProofs DocWalk PageSpec DocPage DocParts DocRes DocRes2 DocEnd DocXref DocLayout DocFile OutlineSpec DocOutline DocBack DocProps
  ReadSpec ReadProofs ReadProps.
From Coq Require Import String Permutation.
Open Scope Z_scope.
Notation length := List.length.
Local Notation "a +++ b" := (List.app a b) (at level 60, right associativity, only parsing).

Definition own_boxes : list bytes := [bs "CropBox"; bs "BleedBox"; bs "TrimBox"; bs "ArtBox"]%string.

Section Value.
  Context {E : env} (d : doc (e_num E)).
  Notation fmt := (e_fmt2 E).
  Definition four (x y w h : e_num E) : bytes := fmt x +++ bs " " +++ fmt y +++ bs " " +++ fmt w +++ bs " " +++ fmt h.
  (** the text of a box of a page: its own size or that of the document, and the boxes set for it *)
  Definition box_value (name : bytes) (pg : page (e_num E)) : option bytes :=
    if beqb name (bs "MediaBox")
    then Some (match pg_size pg with Some (w, h) => bs "0 0 " +++ fmt w +++ bs " " +++ fmt h | None => bs "0 0 " +++ fmt (d_defw d) +++ bs " " +++ fmt (d_defh d) end)
    else match find (fun b => beqb name (fst b)) (pg_boxes pg) with Some (_, (x, y, w, h)) => Some (four x y w h) | None => None end.
End Value.

Lemma upto_free a r : no_delimiter a -> upto_bracket (a +++ bs "]" +++ r) = a.
Proof.
  intros F. induction F as [|c s H F IH]; [reflexivity|]. rewrite <- app_comm_cons. cbn [upto_bracket].
  replace (c =? 93) with false by (symmetry; apply Z.eqb_neq; intros ->; apply H; cbv; tauto). now rewrite IH.
Qed.
Lemma no_delim_lit s : forallb (fun c => negb (existsb (Z.eqb c) (bs "()<>[]/"))) s = true -> no_delimiter s.
Proof.
  intros H. apply Forall_forall. intros c Hc Hd. rewrite forallb_forall in H. specialize (H c Hc). apply negb_true_iff in H.
  assert (X : existsb (Z.eqb c) (bs "()<>[]/") = true) by (apply existsb_exists; exists c; split; [exact Hd|apply Z.eqb_refl]). congruence.
Qed.

Section Deep.
  Context {E : env} (d : doc (e_num E)) (filespec : Z -> Z) (K : bytes).
  Hypothesis HK : hd 0 K = 47.
  Hypothesis fmt_free : forall x, no_delimiter (e_fmt2 E x).
  Lemma deep_link lk t r : link_annotation d lk t -> seek K 3 0 false (t +++ r) = seek K 3 0 false r.
  Proof using HK fmt_free.
    intros (a & -> & H0 & H1). unfold rect. sk. destruct (Z.eq_dec (lk_link lk) 0) as [E0|E0].
    - destruct (H0 E0) as (u & (c & Hu & _) & ->). sk. rewrite (seek_string _ _ u _ c) by (try discriminate; apply Hu). now sk.
    - destruct (H1 E0) as (p & y & _ & ->). sk. reflexivity.
  Qed.
  Lemma deep_file an t r : file_annotation d filespec an t -> seek K 3 0 false (t +++ r) = seek K 3 0 false r.
  Proof using HK fmt_free.
    intros (a & desc & name & d16 & n16 & _ & _ & _ & (c1 & H1 & _) & (c2 & H2 & _) & ->). unfold rect, appearance, rect. sk.
    rewrite (seek_string _ _ desc _ c1) by (try discriminate; apply H1). sk.
    rewrite (seek_string _ _ name _ c2) by (try discriminate; apply H2). now sk.
  Qed.
  Lemma deep_all {A} (P : A -> bytes -> Prop) l ts r : (forall x t r, P x t -> seek K 3 0 false (t +++ r) = seek K 3 0 false r) -> Forall2 P l ts ->
    seek K 3 0 false (List.concat ts +++ r) = seek K 3 0 false r.
  Proof using. clear. intros H F. induction F as [|x t l ts Hx F IH]; [reflexivity|]. cbn [List.concat]. rewrite <- app_assoc, (H x) by exact Hx. exact IH. Qed.
  Lemma deep_annots pg t r : scan K 2 0 false (bs "/Annots [") = Some (3%nat, 0%nat, false) -> annotations d filespec pg t -> seek K 2 0 false (t +++ r) = seek K 2 0 false r.
  Proof using HK fmt_free.
    intros HS [(_ & _ & ->)|(_ & ls & fs & F1 & F2 & ->)]; [reflexivity|]. unfold PageSpec.line. rewrite <- ?app_assoc. rewrite (seek_lit _ _ _ _ _ HS).
    rewrite (deep_all _ _ _ _ deep_link F1), (deep_all _ _ _ _ deep_file F2).
    change (bs "]" +++ eol +++ r) with (93 :: 10 :: r). cbn [seek Nat.eqb andb Z.eqb Pos.eqb orb].
    destruct K as [|c k]; [discriminate HK|]. cbn in HK. subst c. reflexivity.
  Qed.
End Deep.

Section Box.
  Context {E : env} (d : doc (e_num E)) (filespec : Z -> Z).
  Hypothesis fmt_free : forall x, no_delimiter (e_fmt2 E x).
  Definition key (name : bytes) : bytes := bs "/" +++ name +++ bs " [".
  Lemma one_box name b r : In name box_names -> In (fst b) own_boxes ->
    seek (key name) 2 0 false (page_box (E := E) b +++ r) =
      if beqb name (fst b) then (let '(_, (x, y, w, h)) := b in Some (four (E := E) x y w h +++ bs "]" +++ eol +++ r)) else seek (key name) 2 0 false r.
  Proof using fmt_free.
    destruct b as [bn [[[x y] w] h]]. cbn [fst]. intros H1 H2. unfold page_box, PageSpec.line, four. rewrite <- ?app_assoc.
    rewrite (app_assoc (bs "/") bn), (app_assoc (bs "/" +++ bn) (bs " [")). rewrite <- (app_assoc (bs "/") bn (bs " [")). fold (key bn).
    unfold box_names, own_boxes in H1, H2. cbn [In] in H1, H2.
    repeat (destruct H2 as [<-|H2]; [repeat (destruct H1 as [<-|H1];
      [match goal with |- context [beqb ?a ?b] => let v := eval vm_compute in (beqb a b) in change (beqb a b) with v end; cbv iota;
       first [rewrite seek_hit by discriminate; reflexivity|sk; reflexivity]|]); destruct H1|]). destruct H2.
  Qed.
  Lemma all_boxes name l r : In name box_names -> Forall (fun b => In (fst b) own_boxes) l ->
    match find (fun b => beqb name (fst b)) l with
    | Some (_, (x, y, w, h)) => exists r', seek (key name) 2 0 false (List.concat (map (@page_box E) l) +++ r) = Some (four (E := E) x y w h +++ bs "]" +++ r')
    | None => seek (key name) 2 0 false (List.concat (map (@page_box E) l) +++ r) = seek (key name) 2 0 false r
    end.
  Proof using fmt_free.
    intros HN F. induction F as [|b l H F IH]; [reflexivity|]. cbn [map List.concat find]. rewrite <- app_assoc. rewrite one_box by assumption.
    destruct (beqb name (fst b)); [|exact IH]. destruct b as [bn [[[x y] w] h]]. eexists. reflexivity.
  Qed.
  Lemma own_not_media name : In name own_boxes -> beqb name (bs "MediaBox") = false.
  Proof using. clear. intros H. unfold own_boxes in H. cbn [In] in H. repeat (destruct H as [<-|H]; [reflexivity|]). destruct H. Qed.
  Lemma no_own l : Forall (fun b : bytes * (e_num E * e_num E * e_num E * e_num E) => In (fst b) own_boxes) l -> find (fun b => beqb (bs "MediaBox") (fst b)) l = None.
  Proof using.
    clear. intros F. induction F as [|b l H F IH]; [reflexivity|]. cbn [find]. unfold own_boxes in H. cbn [In] in H.
    repeat (destruct H as [<-|H]; [exact IH|]). destruct H.
  Qed.
  (** what the reader finds in the dictionary of a page *)
  Lemma page_seek name boxes version pg t c r : In name box_names -> Forall (fun b => In (fst b) own_boxes) boxes -> page_entries d filespec boxes version pg t ->
    let o := entry_of (key name) (bs "<</Type /Page" +++ eol +++ bs "/Parent 1 0 R" +++ eol +++ t +++ bs "/Contents " +++ dec c +++ bs " 0 R>>" +++ eol +++ r) in
    if beqb name (bs "MediaBox")
    then match pg_size pg with Some (w, h) => exists r', o = Some ((bs "0 0 " +++ e_fmt2 E w +++ bs " " +++ e_fmt2 E h) +++ bs "]" +++ r') | None => o = None end
    else match find (fun b => beqb name (fst b)) boxes with Some (_, (x, y, w, h)) => exists r', o = Some (four (E := E) x y w h +++ bs "]" +++ r') | None => o = None end.
  Proof using fmt_free.
    intros HN HB (an & HA & ->) o. unfold o. clear o.
    assert (T : forall s, seek (key name) 2 0 false (List.concat (map (@page_box E) boxes) +++ PageSpec.line (bs "/Resources 2 0 R") +++ an +++
        (if bltb (bs "1.3") version then PageSpec.line (bs "/Group <</Type /Group /S /Transparency /CS /DeviceRGB>>") else []) +++ bs "/Contents " +++ dec c +++ bs " 0 R>>" +++ s) =
        match find (fun b => beqb name (fst b)) boxes with Some _ => seek (key name) 2 0 false (List.concat (map (@page_box E) boxes) +++ PageSpec.line (bs "/Resources 2 0 R") +++ an +++
        (if bltb (bs "1.3") version then PageSpec.line (bs "/Group <</Type /Group /S /Transparency /CS /DeviceRGB>>") else []) +++ bs "/Contents " +++ dec c +++ bs " 0 R>>" +++ s) | None => None end).
    { intros s. match goal with |- seek _ _ _ _ (List.concat _ +++ ?q) = _ => pose proof (all_boxes name boxes q HN HB) as AB end.
      destruct (find _ boxes) as [b|]; [reflexivity|]. rewrite AB. clear AB. unfold PageSpec.line.
      assert (HS : scan (key name) 2 0 false (bs "/Annots [") = Some (3%nat, 0%nat, false)) by (unfold box_names in HN; cbn [In] in HN; repeat (destruct HN as [<-|HN]; [reflexivity|]); destruct HN).
      assert (HK : hd 0 (key name) = 47) by reflexivity.
      pose proof (fun r => deep_annots d filespec (key name) HK fmt_free pg an r HS HA) as DA.
      unfold box_names in HN. cbn [In] in HN.
      repeat (destruct HN as [<-|HN]; [rewrite <- ?app_assoc; do 2 sk1; rewrite DA; destruct (bltb (bs "1.3") version); sk; reflexivity|]). destruct HN. }
    assert (P : forall s, entry_of (key name) (bs "<</Type /Page" +++ eol +++ bs "/Parent 1 0 R" +++ eol +++ s) = seek (key name) 2 0 false s).
    { intros s. unfold entry_of. rewrite (proj2 (prefixb_spec (bs "<<") _)) by (eexists; reflexivity).
      unfold box_names in HN. cbn [In] in HN. repeat (destruct HN as [<-|HN]; [sk; reflexivity|]). destruct HN. }
    rewrite P. clear P. rewrite <- ?app_assoc.
    destruct (beqb name (bs "MediaBox")) eqn:EM.
    - apply beqb_eq in EM. subst name. destruct (pg_size pg) as [[w h]|].
      + eexists. unfold media_box, PageSpec.line. change (bs "/MediaBox [0 0 ") with (key (bs "MediaBox") +++ bs "0 0 "). rewrite <- ?app_assoc. rewrite seek_hit by discriminate. reflexivity.
      + cbn [media_box app]. rewrite T. now rewrite no_own.
    - assert (M : forall s, seek (key name) 2 0 false (media_box (E := E) (pg_size pg) +++ s) = seek (key name) 2 0 false s).
      { intros s. destruct (pg_size pg) as [[w h]|]; [|reflexivity]. unfold media_box, PageSpec.line. clear T HB HA.
        unfold box_names in HN. cbn [In] in HN. repeat (destruct HN as [<-|HN]; [first [discriminate EM|sk; reflexivity]|]). destruct HN. }
      rewrite M. match goal with |- context [seek _ _ _ _ (List.concat _ +++ ?q)] => pose proof (all_boxes name boxes q HN HB) as AB end.
      destruct (find (fun b => beqb name (fst b)) boxes) as [[bn [[[x y] w] h]]|] eqn:EF; [exact AB|]. rewrite T. reflexivity.
  Qed.
End Box.

Lemma kids_free kids : no_delimiter (List.concat (map (fun k => dec k +++ bs " 0 R ") kids)).
Proof.
  induction kids as [|k kids IH]; [constructor|]. cbn [map List.concat]. apply no_delimiter_app; [|exact IH]. apply no_delimiter_app; [apply no_delimiter_dec|].
  apply no_delim_lit. reflexivity.
Qed.
Lemma tree_seek {E : env} (d : doc (e_num E)) name kids r : (forall x, no_delimiter (e_fmt2 E x)) -> inherited name = true ->
  exists r', entry_of (key name) (pages_body d kids (tree_tail d) +++ bs "endobj" +++ eol +++ r) =
    if beqb name (bs "MediaBox") then Some ((bs "0 0 " +++ e_fmt2 E (d_defw d) +++ bs " " +++ e_fmt2 E (d_defh d)) +++ bs "]" +++ r') else None.
Proof.
  intros HF HI. eexists. unfold pages_body, tree_tail, kids_text. pose proof (kids_free kids) as KF. set (ks := List.concat _) in *. clearbody ks. change nl with eol.
  change (bs "<</Type /Pages") with (bs "<<" +++ bs "/Type /Pages"). rewrite <- ?app_assoc. rewrite entry_of_start.
  unfold inherited in HI. apply orb_prop in HI as [HI|HI]; apply beqb_eq in HI; subst name.
  - sk. change (bs "/MediaBox [0 0 ") with (key (bs "MediaBox") +++ bs "0 0 "). rewrite <- ?app_assoc. rewrite seek_hit by discriminate. reflexivity.
  - change (bs ">>") with ([62] +++ [62]). rewrite <- ?app_assoc. sk. reflexivity.
Qed.

(** looking a box up by its name does not depend on the order of the boxes *)
Lemma find_order {A} (l l' : list (bytes * A)) name : Permutation l l' -> NoDup (map fst l) -> find (fun b => beqb name (fst b)) l = find (fun b => beqb name (fst b)) l'.
Proof.
  intros P. induction P as [|x l l' P IH|x y l|l l2 l3 P1 IH1 P2 IH2]; intros N; [reflexivity| | |].
  - cbn [map] in N. inversion N; subst. cbn [find]. destruct (beqb name (fst x)); [reflexivity|now apply IH].
  - cbn [map] in N. inversion N as [|? ? H1 _]; subst. cbn [find]. destruct (beqb name (fst x)) eqn:E1; destruct (beqb name (fst y)) eqn:E2; try reflexivity.
    apply beqb_eq in E1. apply beqb_eq in E2. exfalso. apply H1. left. congruence.
  - rewrite IH1 by exact N. apply IH2. eapply Permutation_NoDup; [apply Permutation_map; exact P1|exact N].
Qed.

Theorem C95_boxes_read_back :
  forall (E : env) (d : doc (e_num E)) (pre name : bytes),
    well_formed d -> finished d pre -> zlength (file_of d pre) < 10 ^ 10 -> 0 <= d_page d ->
    (forall x, no_delimiter (e_fmt2 E x)) ->
    (forall pg, In pg (d_pages d) -> NoDup (map fst (pg_boxes pg)) /\ Forall (fun b => In (fst b) own_boxes) (pg_boxes pg)) ->
    In name box_names ->
    read_boxes name (file_of d pre) = Some (map (box_value d name) (firstn (Z.to_nat (d_page d)) (d_pages d))).
Proof.
  intros E d pre name W F S Hp HF HB HN. destruct (enddoc_assembled d pre (well_formed_inputs d W) F) as (os & ps & oa & A).
  destruct (tables d _ _ _ _ _ A S) as (x & offs & enc & rest & Sx & _ & Hl & R & Er & _ & Ex & Hoff & _).
  fold (file_of d pre) in *. set (table := Free 0 65535 :: map (fun o => InUse o 0) offs) in *.
  assert (OB : forall k body, In (obj k body) os -> exists r, object_from (file_of d pre) table k = Some (body +++ bs "endobj" +++ eol +++ r)).
  { intros k body Hin. unfold obj in Hin. destruct (Hoff _ _ Hin) as (off & Hn & Hf).
    assert (Hk : 1 <= k <= w_n (enddoc d (w_init pre))) by (eapply (num_range d); [exact A|]; apply (in_map fst) in Hin; exact Hin).
    eapply (object_from_found _ _ _ off); [|exact Hf]. replace (Z.to_nat k) with (Datatypes.S (Z.to_nat (k - 1))) by lia. exact (map_nth_error (fun o => InUse o 0) _ _ Hn). }
  destruct (as_pages _ _ _ _ _ _ A) as ((tab & PA) & Hp1). destruct (as_dpage _ _ _ _ _ _ A) as [Hle _].
  assert (Hlen : length (doc_pages d) = Z.to_nat (d_page d)) by (unfold doc_pages; apply firstn_length_le; unfold zlen in Hle; lia).
  destruct (as_outl _ _ _ _ _ _ A) as (no & _ & tc & Hc & _).
  pose proof (as_n _ _ _ _ _ _ A) as Hn.
  unfold read_boxes. rewrite (table_offset_of _ x Sx) by (rewrite Ex; apply zlen_nonneg). cbn [bind]. rewrite R. cbn [bind fst snd].
  rewrite Er. change nl with eol. rewrite (app_assoc (bs "trailer") eol), strip_app. cbn [bind].
  unfold trailer_text. change nl with eol. rewrite entry_of_start. rewrite <- ?app_assoc.
  set (n := w_n (enddoc d (w_init pre))) in *. clearbody n.
  do 5 sk1. rewrite seek_hit by discriminate. cbn [bind]. rewrite reference_dec by lia. cbn [bind fst].
  destruct (OB _ _ Hc) as (r1 & ->). cbn [bind]. rewrite <- ?app_assoc. rewrite entry_of_start. change nl with eol.
  do 4 sk1. change (bs "/Pages 1 0 R") with (bs "/Pages " +++ dec 1 +++ bs " 0 R"). rewrite <- ?app_assoc. rewrite seek_hit by discriminate. cbn [bind].
  rewrite reference_dec by lia. cbn [bind fst].
  destruct (OB _ _ Hp1) as (r2 & Etree). rewrite Etree. cbn [bind].
  set (ks := odd_from (3 + 2 * zlen ps) (length (doc_pages d))) in *.
  pose proof (fun H => tree_seek d name ks r2 HF H) as TS.
  unfold pages_body. rewrite <- ?app_assoc. change nl with eol.
  change (bs "<</Type /Pages") with (bs "<<" +++ bs "/Type /Pages"). rewrite <- ?app_assoc. rewrite entry_of_start. do 3 sk1. rewrite seek_hit by discriminate. cbn [bind].
  unfold kids_text.
  assert (Fk : Forall (fun k => 0 <= k) ks).
  { apply Forall_forall. intros k Hk. apply In_nth_error in Hk as (i & Hi). assert (Hi' : (i < length (doc_pages d))%nat).
    { unfold ks in Hi. rewrite <- (odd_from_len (3 + 2 * zlen ps) (length (doc_pages d))). apply nth_error_Some. congruence. }
    unfold ks in Hi. rewrite odd_from_nth in Hi by exact Hi'. injection Hi as <-. pose proof (zlen_nonneg ps). lia. }
  rewrite references_kids; [|exact Fk|]. 2:{ rewrite app_length. pose proof (concat_refs_length ks) as X. cbn beta in X. rewrite (app_length (bs "]")). change (length (bs "]")) with 1%nat. lia. }
  cbn [bind]. apply all_nth; [rewrite map_length; unfold ks; rewrite odd_from_len; reflexivity|].
  intros i k y Hi Hy. fold (doc_pages d) in Hy.
  assert (Hi' : (i < length (doc_pages d))%nat). { rewrite <- (map_length (box_value d name)). apply nth_error_Some. congruence. }
  destruct (nth_error (doc_pages d) i) as [pg|] eqn:Epg; [|apply nth_error_None in Epg; lia].
  rewrite (map_nth_error _ _ _ Epg) in Hy. injection Hy as <-. unfold ks in Hi. rewrite odd_from_nth in Hi by exact Hi'. injection Hi as <-.
  destruct (PA i pg Epg) as (a & o & c & Eo & t & body & -> & _ & _ & PE & Eb). pose proof (zlen_nonneg ps) as Hps.
  assert (Hpg : In pg (d_pages d)).
  { apply nth_error_In in Epg. unfold doc_pages in Epg. rewrite <- (firstn_skipn (Z.to_nat (d_page d)) (d_pages d)). apply in_or_app. now left. }
  destruct (HB pg Hpg) as [ND OW].
  set (k := 3 + 2 * zlen ps + 2 * Z.of_nat i) in *. clearbody k.
  unfold page_box_at. edestruct (OB k) as (r3 & E3); [rewrite Eo; apply in_or_app; right; left; reflexivity|]. rewrite E3. clear E3.
  cbn [bind]. rewrite <- ?app_assoc. change nl with eol.
  pose proof (wf_order d W 3 _ (pg_boxes pg)) as PP.
  assert (OW' : Forall (fun b => In (fst b) own_boxes) (e_shuffle E 3 _ (pg_boxes pg))) by (eapply Permutation_Forall; [apply Permutation_sym, PP|exact OW]).
  pose proof (page_seek d (att_of d tab) HF name _ (version2 d) pg t (k + 1) (bs "endobj" +++ eol +++ r3) HN OW' (PE I)) as PS. cbv zeta in PS. unfold key in PS.
  assert (EF : find (fun b => beqb name (fst b)) (e_shuffle E 3 _ (pg_boxes pg)) = find (fun b => beqb name (fst b)) (pg_boxes pg)).
  { symmetry. apply find_order; [exact PP || exact (Permutation_sym PP)|exact ND]. }
  rewrite EF in PS. clear EF.
  assert (PR : exists q, entry_of (bs "/Parent ") (bs "<</Type /Page" +++ eol +++ bs "/Parent 1 0 R" +++ eol +++ t +++ bs "/Contents " +++ dec (k + 1) +++ bs " 0 R>>" +++ eol +++ bs "endobj" +++ eol +++ r3) = Some (dec 1 +++ bs " 0 R" +++ q)).
  { eexists. change (bs "<</Type /Page") with (bs "<<" +++ bs "/Type /Page"). change (bs "/Parent 1 0 R") with (bs "/Parent " +++ dec 1 +++ bs " 0 R"). rewrite <- ?app_assoc. rewrite entry_of_start.
    do 3 sk1. rewrite seek_hit by discriminate. reflexivity. }
  destruct PR as (q & PR).
  assert (FF : forall a b c e, no_delimiter (four (E := E) a b c e)).
  { intros a0 b0 c0 e0. unfold four. repeat apply no_delimiter_app; try apply HF; apply no_delim_lit; reflexivity. }
  assert (FM : forall a b, no_delimiter (bs "0 0 " +++ e_fmt2 E a +++ bs " " +++ e_fmt2 E b)).
  { intros a0 b0. repeat apply no_delimiter_app; try apply HF; apply no_delim_lit; reflexivity. }
  unfold box_value. destruct (beqb name (bs "MediaBox")) eqn:EM.
  - assert (IN : inherited name = true) by (unfold inherited; now rewrite EM). rewrite IN. destruct (TS IN) as (rt & TS').
    unfold key in TS'. destruct (pg_size pg) as [[w h]|].
    + destruct PS as (r' & ->). do 2 f_equal. f_equal. apply upto_free, FM.
    + rewrite PS, PR. cbn [bind]. rewrite reference_dec by lia. cbn [bind fst]. rewrite Etree. cbn [bind]. rewrite TS'. do 2 f_equal. apply upto_free, FM.
  - destruct (find _ (pg_boxes pg)) as [[bn [[[x0 y0] w0] h0]]|].
    + destruct PS as (r' & ->). do 2 f_equal. apply upto_free, FF.
    + rewrite PS. destruct (inherited name) eqn:IN; [|reflexivity]. destruct (TS eq_refl) as (rt & TS'). unfold key in TS'.
      rewrite PR. cbn [bind]. rewrite reference_dec by lia. cbn [bind fst]. rewrite Etree. cbn [bind]. now rewrite TS'.
Qed.
Print Assumptions C95_boxes_read_back.

(** Two pages, the first with a size and two boxes of its own, a link and an attachment the text of which names boxes *)
Definition page95 : page Z :=
  {| pg_content := bs "first"; pg_size := Some (100, 50); pg_boxes := [(bs "CropBox", (1, 2, 3, 4)); (bs "ArtBox", (5, 6, 7, 8))];
     pg_links := [{| lk_x := 10; lk_y := 90; lk_w := 20; lk_h := 5; lk_link := 0; lk_uri := bs ">>/TrimBox [1 2 3 4]" |}];
     pg_annots := [{| an_att := 0; an_x := 1; an_y := 9; an_w := 2; an_h := 3 |}] |}.
Definition doc95 (prot : option protect) : doc Z := doc0 [page95; page0 (bs "/MediaBox [1 1 1 1]") []] 2 [att90] [] [] [] prot.
Example C95_ex : finished (E := env0) (doc95 None) [] /\
  map (fun n => read_boxes n (file_of (E := env0) (doc95 None) [])) box_names =
  [Some [Some (bs "0 0 100.00 50.00"); Some (bs "0 0 210.00 297.00")]; Some [Some (bs "1.00 2.00 3.00 4.00"); None]; Some [None; None]; Some [None; None];
   Some [Some (bs "5.00 6.00 7.00 8.00"); None]].
Proof. split; [split; vm_compute; reflexivity|vm_compute; reflexivity]. Qed.
Example C95_ex_thm : forall name, In name box_names -> read_boxes name (file_of (E := env0) (doc95 None) []) = Some (map (box_value (E := env0) (doc95 None) name) [page95; page0 (bs "/MediaBox [1 1 1 1]") []]).
Proof.
  intros name HN. apply (C95_boxes_read_back env0 (doc95 None) [] name).
  - apply doc0_wf.
  - exact (proj1 C95_ex).
  - vm_compute. reflexivity.
  - discriminate.
  - exact env0_free.
  - intros pg [<-|[<-|[]]]; (split; [repeat constructor; cbn; intuition discriminate|]); repeat constructor; cbn; tauto.
  - exact HN.
Qed.
