(** Proofs for C62, continued: images and templates. *)
From Verif Require Import Base TextModel Crypto DocModel DocSpec DocSort DocProofs DocWalk DocParts DocRes DocRes2 DocEnd DocXref DocLayout ResSpec ResProofs ResProofs2 ResProofs3.
From Coq Require Import String Permutation.
Open Scope Z_scope.
Notation length := List.length.
Local Notation "a +++ b" := (List.app a b) (at level 60, right associativity, only parsing).
Local Notation objs := (list (Z * bytes)).

Section Images.
  Context {E : env} (d : doc (e_num E)).
  Hypothesis W : forall site A (l : list A), Permutation (e_shuffle E site A l) l.
  Hypothesis RS : resources_sound d.
  Local Notation S := (cipher d).

  Lemma image_same O k e e' : In e (d_images d) -> In e' (d_images d) -> im_id (snd e) = im_id (snd e') ->
    image_at d O S k (snd e) -> image_at d O S k (snd e').
  Proof. intros H1 H2 H3 X. rewrite (so_imgid d RS e e' H1 H2 H3). exact X. Qed.

  Lemma put_image_list_stage l : forall ins w (O0 : Z -> bytes -> Prop),
    incl l (d_images d) -> cipok w -> 2 <= w_n w ->
    (forall id n, In (id, n) ins -> 2 < n <= w_n w /\ forall e, In e (d_images d) -> im_id (snd e) = id -> image_at d O0 S n (snd e)) ->
    exists os ts, adds w (put_image_list d l ins w) os /\ w_tab (put_image_list d l ins w) = ts +++ w_tab w /\
      (forall s, In s (map fst ts) -> exists e, In e l /\ s = SImg (im_ptr (snd e))) /\
      forall e, In e l -> exists k, find_slot (SImg (im_ptr (snd e))) ts = Some k /\ image_at d (fun k b => O0 k b \/ Oin os k b) S k (snd e).
  Proof.
    induction l as [|[key im] l IH]; intros ins w O0 Hl Hc H2 Hins.
    - exists [], []. split; [apply adds_refl|]. split; [reflexivity|]. split; intros ? [].
    - assert (Him : In (key, im) (d_images d)) by (apply Hl; now left).
      assert (Hl' : incl l (d_images d)) by (intros x Hx; apply Hl; now right).
      assert (Fin : forall o1 k1 o2 t2,
         image_at d (fun k b => O0 k b \/ Oin (o1 +++ o2) k b) S k1 im ->
         (forall s, In s (map fst t2) -> exists e, In e l /\ s = SImg (im_ptr (snd e))) ->
         (forall e, In e l -> exists k, find_slot (SImg (im_ptr (snd e))) t2 = Some k /\ image_at d (fun k b => O0 k b \/ Oin (o1 +++ o2) k b) S k (snd e)) ->
         (forall s, In s (map fst (t2 +++ [(SImg (im_ptr im), k1)])) -> exists e, In e ((key, im) :: l) /\ s = SImg (im_ptr (snd e))) /\
         (forall e, In e ((key, im) :: l) -> exists k, find_slot (SImg (im_ptr (snd e))) (t2 +++ [(SImg (im_ptr im), k1)]) = Some k /\
            image_at d (fun k b => O0 k b \/ Oin (o1 +++ o2) k b) S k (snd e))).
      { intros o1 k1 o2 t2 Hk Ht He. split.
        - intros s Hs. rewrite map_app, in_app_iff in Hs. destruct Hs as [Hs|[<-|[]]].
          + destruct (Ht s Hs) as (e & X & Y). exists e. split; [now right|exact Y].
          + exists (key, im). split; [now left|reflexivity].
        - assert (Case : forall e, In e l -> exists k, find_slot (SImg (im_ptr (snd e))) (t2 +++ [(SImg (im_ptr im), k1)]) = Some k /\
            image_at d (fun k b => O0 k b \/ Oin (o1 +++ o2) k b) S k (snd e)).
          { intros e Hx. destruct (He e Hx) as (k & X & Y). exists k. split; [now apply find_slot_hit|exact Y]. }
          intros e [<-|Hx]; [|auto]. cbn [snd].
          destruct (in_dec slot_dec (SImg (im_ptr im)) (map fst t2)) as [Hin|Hn].
          + destruct (Ht _ Hin) as (y & Hy & Ey). injection Ey as Ey. pose proof (so_imgptr d RS (key, im) y Him (Hl' y Hy) Ey) as X. cbn [snd] in X. destruct (Case y Hy) as (k & X1 & X2). exists k. rewrite <- Ey in X1. rewrite <- X in X2. auto.
          + exists k1. split; [|exact Hk]. rewrite find_slot_skip by exact Hn. cbn [find_slot]. now rewrite (proj2 (slot_eqb_eq _ _) eq_refl). }
      cbn [put_image_list]. destruct (assoc (im_id im) ins) as [n|] eqn:Ea.
      + apply assoc_in in Ea. destruct (Hins _ _ Ea) as [Hn Hi].
        destruct (IH ins (set_tab ((SImg (im_ptr im), n) :: w_tab w) w) O0 Hl' Hc H2 Hins) as (o2 & t2 & A2 & T2 & K2 & L2).
        exists ([] +++ o2), (t2 +++ [(SImg (im_ptr im), n)]). split; [|split].
        * apply (adds_pretab [(SImg (im_ptr im), n)]); [|exact A2]. intros _ _. constructor; [|constructor]. cbn.
          pose proof (ad_n _ _ _ A2) as X. pose proof (zlen_nonneg o2). change (w_n (set_tab ((SImg (im_ptr im), n) :: w_tab w) w)) with (w_n w) in X. lia.
        * rewrite T2. cbn [w_tab set_tab]. rewrite <- app_assoc. reflexivity.
        * apply (Fin [] n o2 t2).
          -- specialize (Hi _ Him eq_refl). cbn [snd] in Hi. eapply image_at_mono; [|reflexivity|exact Hi]. auto.
          -- exact K2.
          -- exact L2.
      + destruct (put_image_exact d im w Hc (so_image d RS _ Him)) as (o1 & A1 & T1 & X1).
        assert (N1 : w_n w < w_n (put_image d im w)).
        { pose proof (ad_n _ _ _ A1) as Y. destruct o1; [destruct X1 as (cs & sm & _ & _ & []) |]. rewrite zlen_cons in Y. pose proof (zlen_nonneg o1). lia. }
        cbv zeta. assert (Sv : saved (SImg (im_ptr im)) (put_image d im w) = w_n w + 1). { unfold saved. rewrite T1. cbn [find_slot]. now rewrite (proj2 (slot_eqb_eq _ _) eq_refl). }
        rewrite Sv.
        destruct (IH ((im_id im, w_n w + 1) :: ins) (put_image d im w) (fun k b => O0 k b \/ Oin o1 k b) Hl' (ad_cip _ _ _ A1 Hc) ltac:(lia)) as (o2 & t2 & A2 & T2 & K2 & L2).
        { intros id n [X|X].
          - injection X as <- <-. split; [lia|]. intros e He Eid. apply (image_same _ _ (key, im) e Him He (eq_sym Eid)).
            cbn [snd]. eapply image_at_mono; [|reflexivity|exact X1]. auto.
          - destruct (Hins _ _ X) as [Y1 Y2]. split; [lia|]. intros e He Eid. eapply image_at_mono; [|reflexivity|exact (Y2 e He Eid)]. auto. }
        exists (o1 +++ o2), (t2 +++ [(SImg (im_ptr im), w_n w + 1)]). split; [eapply adds_trans; eassumption|]. split; [rewrite T2, T1, <- app_assoc; reflexivity|].
        apply Fin.
        * eapply image_at_mono; [|reflexivity|exact X1]. intros x y Y. right. now apply oin_l.
        * exact K2.
        * intros e He. destruct (L2 e He) as (k & Y1 & Y2). exists k. split; [exact Y1|]. eapply image_at_mono; [|reflexivity|exact Y2].
          intros x y [[Y|Y]|Y]; [now left|right; now apply oin_l|right; now apply oin_r].
  Qed.
  Lemma put_images_stage w : cipok w -> 2 <= w_n w ->
    exists os ts, adds w (put_images d w) os /\ w_tab (put_images d w) = ts +++ w_tab w /\ of_kind 6 ts /\
      looks (put_images d w) os (fun e => In e (d_images d)) (fun e => SImg (im_ptr (snd e))) (fun O k e => image_at d O S k (snd e)).
  Proof.
    intros Hc H2. unfold put_images.
    destruct (put_image_list_stage (keyed E 6 (d_sort d) (fun a b => im_w (snd a) <? im_w (snd b)) (d_images d)) [] w (fun _ _ => False)) as (os & ts & A & T & K & L); auto.
    - intros x Hx. now apply (keyed_in E W) in Hx.
    - intros id n [].
    - exists os, ts. split; [exact A|]. split; [exact T|]. split.
      + intros s Hs. destruct (K s Hs) as (e & _ & ->). reflexivity.
      + intros e He. destruct (L e) as (k & X & Y). { now apply (keyed_in E W). }
        exists k. split; [rewrite T; now apply find_slot_hit|]. eapply image_at_mono; [|reflexivity|exact Y]. intros x y [[]|H]. exact H.
  Qed.
End Images.

(** ** Lists of lines *)
Lemma fold_lines {A} (f : wst -> A -> wst) (line : A -> bytes) l w :
  (forall x v, In x l -> w_tab v = w_tab w -> f v x = out (line x) v) ->
  writes w (fold_left f l w) (List.concat (map (fun x => line x +++ nl) l)) /\ w_tab (fold_left f l w) = w_tab w /\ w_cip (fold_left f l w) = w_cip w.
Proof.
  revert w. induction l as [|x l IH]; intros w H.
  - split; [apply writes_refl|]. now split.
  - cbn [fold_left map List.concat]. rewrite (H x w (or_introl eq_refl) eq_refl). destruct (IH (out (line x) w)) as (W & T & C).
    + intros y v Hy Hv. apply H; [now right|]. now rewrite Hv, tab_out.
    + split; [|split; [now rewrite T, tab_out|rewrite C; reflexivity]].
      eapply writes_eq; [eapply writes_trans; [apply writes_out|exact W]|]. now rewrite <- app_assoc.
Qed.
Lemma names_map {A} (name : A -> bytes) (num : A -> Z) l :
  List.concat (map (fun x => (bs "/" +++ name x +++ bs " " +++ dec (num x) +++ bs " 0 R") +++ nl) l) = names (map (fun x => (name x, num x)) l).
Proof. unfold names. rewrite map_map. f_equal. apply map_ext. intros x. cbn [fst snd]. unfold ref. txt. Qed.

Section Templates.
  Context {E : env} (d : doc (e_num E)).
  Hypothesis W : forall site A (l : list A), Permutation (e_shuffle E site A l) l.
  Hypothesis RS : resources_sound d.
  Local Notation S := (cipher d).

  Lemma naming_list {A} (things : A -> Prop) (name : A -> bytes) (at_number : Z -> A -> Prop) (num : A -> Z) l :
    (forall a, things a <-> In a l) -> (forall a, In a l -> at_number (num a) a) ->
    naming things name at_number (map (fun a => (name a, num a)) l).
  Proof.
    intros H1 H2. split.
    - intros a Ha. exists (num a). apply (in_map (fun a => (name a, num a))). now apply H1.
    - intros n k Hn. apply in_map_iff in Hn as (a & X & Ha). injection X as <- <-. exists a. split; [now apply H1|]. auto.
  Qed.

  Lemma tpl_fonts_exact w : exists s, writes w (tpl_fonts d w) s /\ w_tab (tpl_fonts d w) = w_tab w /\ w_cip (tpl_fonts d w) = w_cip w /\
     s = section (bs "/Font") (map (fun e => (bs "F" +++ fo_id (snd e), saved (SFont (fst e)) w)) (keyed E 7 (d_sort d) (fun a b => by_key a b) (d_fonts d))).
  Proof.
    unfold tpl_fonts. cbv zeta. set (l := keyed E 7 _ _ _). set (w1 := out (bs "/Font <<") w).
    destruct (fold_lines (fun w e => out (bs "/F" +++ fo_id (snd e) +++ bs " " +++ dec (saved (SFont (fst e)) w) +++ bs " 0 R") w)
       (fun e => bs "/" +++ (bs "F" +++ fo_id (snd e)) +++ bs " " +++ dec (saved (SFont (fst e)) w) +++ bs " 0 R") l w1) as (X & T & C).
    { intros x v _ Hv. f_equal. unfold saved. rewrite Hv. reflexivity. }
    rewrite names_map in X. unfold section.
    match type of X with writes _ _ ?n => set (nm := n) in X; change (exists s, writes w (out (bs ">>") (fold_left (fun w (e : bytes * font) => out (bs "/F" +++ fo_id (snd e) +++ bs " " +++ dec (saved (SFont (fst e)) w) +++ bs " 0 R") w) l w1)) s /\
       w_tab (out (bs ">>") (fold_left (fun w (e : bytes * font) => out (bs "/F" +++ fo_id (snd e) +++ bs " " +++ dec (saved (SFont (fst e)) w) +++ bs " 0 R") w) l w1)) = w_tab w /\
       w_cip (out (bs ">>") (fold_left (fun w (e : bytes * font) => out (bs "/F" +++ fo_id (snd e) +++ bs " " +++ dec (saved (SFont (fst e)) w) +++ bs " 0 R") w) l w1)) = w_cip w /\
       s = bs "/Font" +++ bs " <<" +++ eol +++ nm +++ bs ">>" +++ eol) end. clearbody nm.
    eexists. split; [|split; [|split]].
    - apply writes_snoc. eapply writes_trans; [apply writes_out|exact X].
    - rewrite tab_out, T. reflexivity.
    - change (w_cip (fold_left (fun w e => out (bs "/F" +++ fo_id (snd e) +++ bs " " +++ dec (saved (SFont (fst e)) w) +++ bs " 0 R") w) l w1) = w_cip w). rewrite C. reflexivity.
    - txt.
  Qed.

  (** names as they are in the table *)
  Record ready (O : Z -> bytes -> Prop) (w : wst) (images : list (bytes * image)) (subs : list (tpl (e_num E))) : Prop := {
    rd_font : forall e, In e (d_fonts d) -> exists k, find_slot (SFont (fst e)) (w_tab w) = Some k /\ font_at d O S k (snd e);
    rd_img : forall i, In i images -> exists k, find_slot (SImg (im_ptr (snd i))) (w_tab w) = Some k /\ image_at d O S k (snd i);
    rd_sub : forall s, In s subs -> exists k, find_slot (STpl (tpl_id s)) (w_tab w) = Some k /\ template_at d O S k s }.

  Lemma put_tpl_exact t w (O0 : Z -> bytes -> Prop) : cipok w -> ready O0 w (tpl_images t) (tpl_subs t) ->
    (forall s, In s (tpl_subs t) -> tpl_id s <> tpl_id t) ->
    exists os, adds w (put_tpl d t w) os /\ w_tab (put_tpl d t w) = (STpl (tpl_id t), w_n w + 1) :: w_tab w /\
      template_at d (fun k b => O0 k b \/ Oin os k b) S (w_n w + 1) t.
  Proof.
    destruct t as [ptr id cx cy moved wd ht content images subs]. cbn [tpl_images tpl_subs tpl_id]. intros Hc [Rf Ri Rs] Hid.
    unfold put_tpl. cbv zeta.
    set (w0 := save (STpl id) (newobj w)).
    assert (T0 : w_tab w0 = (STpl id, w_n w + 1) :: w_tab w). { unfold w0. cbn [w_tab save set_tab]. now rewrite newobj_tab, newobj_n. }
    set (h := bs "<<" +++ (if d_compress d then bs "/Filter /FlateDecode " else []) +++ bs "/Type /XObject" +++ eol +++
         bs "/Subtype /Form" +++ eol +++ bs "/Formtype 1" +++ eol +++
         bs "/BBox [" +++ e_fmt2 E (e_nmul E cx (d_k d)) +++ bs " " +++ e_fmt2 E (e_nmul E cy (d_k d)) +++ bs " " +++ e_fmt2 E (e_nmul E (e_nadd E cx wd) (d_k d)) +++ bs " " +++ e_fmt2 E (e_nmul E (e_nadd E cy ht) (d_k d)) +++ bs "]" +++ eol +++
         line_if moved (bs "/Matrix [1 0 0 1 " +++ e_fmt5 E (e_nmul E (e_nmul E (e_nopp E cx) (d_k d)) (e_ntwo E)) +++ bs " " +++ e_fmt5 E (e_nmul E (e_nmul E cy (d_k d)) (e_ntwo E)) +++ bs "]") +++
         bs "/Resources " +++ eol +++ bs "<</ProcSet [/PDF /Text /ImageB /ImageC /ImageI]" +++ eol).
    match goal with |- context [tpl_fonts d ?x] => set (w1 := x) end.
    assert (P1 : writes (newobj w) w1 h /\ w_tab w1 = w_tab w0 /\ w_cip w1 = w_cip (newobj w)).
    { unfold w1, w0, h. destruct moved; (split; [eapply writes_eq; [repeat wr1|]; unfold line_if; txt|split; [rewrite !tab_out|]; reflexivity]). }
    pose proof (eq_refl h) as Eh. unfold h at 2 in Eh. clearbody w1 h. destruct P1 as (X1 & T1 & C1).
    destruct (tpl_fonts_exact w1) as (sf & X2 & T2 & C2 & Ef).
    set (w2 := tpl_fonts d w1) in *. clearbody w2.
    assert (T2' : w_tab w2 = (STpl id, w_n w + 1) :: w_tab w) by now rewrite T2, T1.
    set (num := fun s : tpl (e_num E) => match find_slot (STpl (tpl_id s)) (w_tab w) with Some k => k | None => 0 end).
    set (imgs := map (fun e : bytes * image => (bs "I" +++ im_id (snd e), saved (SImg (im_ptr (snd e))) w)) (keyed E 9 (d_gsort d) (fun a b => by_key a b) images)).
    set (tpls := map (fun s => (bs "TPL" +++ tpl_id s, num s)) subs).
    set (sx := match images, subs with [], [] => [] | _, _ => section (bs "/XObject") (imgs +++ tpls) end).
    match goal with |- context [putstream d ?dt (out ?ln (out (bs ">>") ?x))] => set (w3 := x); set (data := dt) in * end.
    assert (P3 : writes w2 w3 sx /\ w_tab w3 = w_tab w2 /\ w_cip w3 = w_cip w2).
    { assert (Pos : ((0 <? zlen images) || (0 <? zlen subs)) = (match images, subs with [], [] => false | _, _ => true end)).
      { destruct images, subs; rewrite ?zlen_cons, ?zlen_nil; try reflexivity.
        - pose proof (zlen_nonneg subs). lia.
        - pose proof (zlen_nonneg images). lia.
        - pose proof (zlen_nonneg images). lia. }
      assert (Full : exists w3', w3' = out (bs ">>") (fold_left (fun w s => match find_slot (STpl (tpl_id s)) (w_tab w) with
                                                  | Some n => out (bs "/TPL" +++ tpl_id s +++ bs " " +++ dec n +++ bs " 0 R") w
                                                  | None => w end) subs (fold_left (fun w (e : bytes * image) => out (bs "/I" +++ im_id (snd e) +++ bs " " +++ dec (saved (SImg (im_ptr (snd e))) w) +++ bs " 0 R") w)
                                      (keyed E 9 (d_gsort d) (fun a b => by_key a b) images) (out (bs "/XObject <<") w2))) /\
           writes w2 w3' (section (bs "/XObject") (imgs +++ tpls)) /\ w_tab w3' = w_tab w2 /\ w_cip w3' = w_cip w2).
      { eexists. split; [reflexivity|]. set (w4 := out (bs "/XObject <<") w2).
        destruct (fold_lines (fun w (e : bytes * image) => out (bs "/I" +++ im_id (snd e) +++ bs " " +++ dec (saved (SImg (im_ptr (snd e))) w) +++ bs " 0 R") w)
          (fun e => bs "/" +++ (bs "I" +++ im_id (snd e)) +++ bs " " +++ dec (saved (SImg (im_ptr (snd e))) w) +++ bs " 0 R")
          (keyed E 9 (d_gsort d) (fun a b => by_key a b) images) w4) as (Y1 & Y2 & Y3).
        { intros x v _ Hv. unfold saved. rewrite Hv. unfold w4. rewrite tab_out, T2'. reflexivity. }
        rewrite names_map in Y1. set (w5 := fold_left _ _ w4) in *. clearbody w5. change (writes w4 w5 (names imgs)) in Y1.
        destruct (fold_lines (fun w s => match find_slot (STpl (tpl_id s)) (w_tab w) with
                                                  | Some n => out (bs "/TPL" +++ tpl_id s +++ bs " " +++ dec n +++ bs " 0 R") w
                                                  | None => w end)
          (fun s : tpl (e_num E) => bs "/" +++ (bs "TPL" +++ tpl_id s) +++ bs " " +++ dec (num s) +++ bs " 0 R") subs w5) as (Z1 & Z2 & Z3).
        { intros s v Hs Hv. rewrite Hv, Y2. unfold w4. rewrite tab_out, T2'. cbn [find_slot slot_eqb].
          assert (Hne : beqb (tpl_id s) id = false) by (apply beqb_neq; auto). rewrite Hne. unfold num.
          destruct (Rs s Hs) as (k & F & _). rewrite F. reflexivity. }
        rewrite names_map in Z1. match type of Z1 with writes _ _ ?n => change n with (names tpls) in Z1 end. split; [|split].
        - eapply writes_eq; [apply writes_snoc; eapply writes_trans; [|exact Z1]; eapply writes_trans; [apply writes_out|exact Y1]|].
          assert (Nm : names (imgs +++ tpls) = names imgs +++ names tpls) by (unfold names; rewrite map_app, concat_app; reflexivity).
          unfold section. rewrite Nm. clear. generalize (names imgs) (names tpls). intros a b. txt.
        - rewrite tab_out, Z2, Y2. reflexivity.
        - change (w_cip (fold_left (fun w s => match find_slot (STpl (tpl_id s)) (w_tab w) with
                                                  | Some n => out (bs "/TPL" +++ tpl_id s +++ bs " " +++ dec n +++ bs " 0 R") w
                                                  | None => w end) subs w5) = w_cip w2). rewrite Z3, Y3. reflexivity. }
      destruct Full as (w3' & E3 & F1 & F2 & F3).
      subst w3'. unfold w3, sx. rewrite Pos. destruct images; [destruct subs|]; [|exact (conj F1 (conj F2 F3))|exact (conj F1 (conj F2 F3))].
      split; [apply writes_refl|auto]. }
    clearbody w3. destruct P3 as (X3 & T3 & C3).
    destruct (adds_stream_eq d w (out (bs "/Length " +++ dec (zlen data) +++ bs " >>") (out (bs ">>") w3))
      (h +++ sf +++ sx +++ bs ">>" +++ eol +++ bs "/Length " +++ dec (zlength data) +++ bs " >>" +++ eol)
      (((h +++ sf +++ sx) +++ bs ">>" +++ nl) +++ (bs "/Length " +++ dec (zlen data) +++ bs " >>") +++ nl) data Hc) as (os & A & Eo).
    { do 2 apply writes_snoc. eapply writes_trans; [exact X1|]. eapply writes_trans; [exact X2|exact X3]. }
    { change (w_cip w3 = w_cip (newobj w)). now rewrite C3, C2, C1. }
    { change (zlength data) with (zlen data). txt. }
    exists os. split; [exact A|]. split; [rewrite tab_out, putstream_tab, !tab_out, T3, T2'; reflexivity|].
    apply (template_obj d _ _ _ ptr id cx cy moved wd ht content images subs (map (fun e => (bs "F" +++ fo_id (snd e), saved (SFont (fst e)) w1)) (keyed E 7 (d_sort d) (fun a b => by_key a b) (d_fonts d))) imgs tpls).
    - unfold font_names. apply (naming_list _ (fun e : bytes * font => bs "F" +++ fo_id (snd e)) _ (fun e => saved (SFont (fst e)) w1)).
      + intros e. symmetry. apply (keyed_in E W).
      + intros e He. apply (keyed_in E W) in He. destruct (Rf e He) as (k & F & X). unfold saved. rewrite T1, T0. cbn [find_slot slot_eqb]. rewrite F.
        eapply font_at_mono; [|reflexivity|exact X]. auto.
    - intros i Hi. eexists. unfold imgs. apply (in_map (fun e : bytes * image => (bs "I" +++ im_id (snd e), saved (SImg (im_ptr (snd e))) w))). now apply (keyed_in E W).
    - intros n k' Hn. apply in_map_iff in Hn as (i & X & Hi). apply (keyed_in E W) in Hi. injection X as <- <-. exists i. split; [exact Hi|]. split; [reflexivity|].
      destruct (Ri i Hi) as (k & F & Y). unfold saved. rewrite F. eapply image_at_mono; [|reflexivity|exact Y]. auto.
    - intros s Hs. exists (num s). unfold tpls. now apply (in_map (fun s => (bs "TPL" +++ tpl_id s, num s))).
    - intros n k' Hn. apply in_map_iff in Hn as (s & X & Hs). injection X as <- <-. exists s. split; [exact Hs|]. split; [reflexivity|].
      destruct (Rs s Hs) as (k & F & Y). unfold num. rewrite F. eapply template_at_mono; [|reflexivity|exact Y]. auto.
    - cbv zeta. right. rewrite Eo. left. apply (f_equal (obj (w_n w + 1))).
      rewrite Eh, Ef. fold sx. fold data. clearbody sx data. repeat rewrite <- app_assoc. reflexivity.
  Qed.

  Lemma put_tpls_stage w (O0 : Z -> bytes -> Prop) l : cipok w ->
    (forall t, In t l -> exists e, In e (d_tpls d) /\ within t (snd e)) -> ordered l ->
    (forall e, In e (d_fonts d) -> exists k, find_slot (SFont (fst e)) (w_tab w) = Some k /\ font_at d O0 S k (snd e)) ->
    (forall e, In e (d_images d) -> exists k, find_slot (SImg (im_ptr (snd e))) (w_tab w) = Some k /\ image_at d O0 S k (snd e)) ->
    exists os ts, adds w (fold_left (fun w t => put_tpl d t w) l w) os /\ w_tab (fold_left (fun w t => put_tpl d t w) l w) = ts +++ w_tab w /\ of_kind 7 ts /\
      forall t, In t l -> exists k, find_slot (STpl (tpl_id t)) ts = Some k /\ template_at d (fun k b => O0 k b \/ Oin os k b) S k t.
  Proof.
    intros Hc Hin Ho Hf Hi.
    induction l as [|t l IH] using rev_ind.
    - exists [], []. split; [apply adds_refl|]. split; [reflexivity|]. split; [intros ? []|intros ? []].
    - destruct IH as (o1 & t1 & A1 & T1 & K1 & L1).
      { intros u Hu. apply Hin. apply in_or_app. now left. }
      { intros a u b s E1 Hs. apply (Ho a u (b +++ [t]) s); [|exact Hs]. rewrite E1, <- app_assoc. reflexivity. }
      rewrite !fold_left_app. cbn [fold_left]. set (v := fold_left (fun w t => put_tpl d t w) l w) in *. clearbody v.
      destruct (Hin t) as (e & He & Hw). { apply in_or_app. right. now left. }
      assert (Hsub : forall s, In s (tpl_subs t) -> In s l) by (intros s Hs; apply (Ho l t [] s eq_refl Hs)).
      destruct (put_tpl_exact t v (fun k b => O0 k b \/ Oin o1 k b) (ad_cip _ _ _ A1 Hc)) as (o2 & A2 & T2 & X2).
      { constructor.
        - intros x Hx. destruct (Hf x Hx) as (k & F & X). exists k. split; [|eapply font_at_mono; [|reflexivity|exact X]; auto].
          rewrite T1, (find_slot_kind 7) by (auto; discriminate). exact F.
        - intros i Hx. destruct (so_tplimg d RS e t i He Hw Hx) as (e' & He' & <-). destruct (Hi e' He') as (k & F & X). exists k.
          split; [|eapply image_at_mono; [|reflexivity|exact X]; auto].
          rewrite T1, (find_slot_kind 7) by (auto; discriminate). exact F.
        - intros s Hs. destruct (L1 s (Hsub s Hs)) as (k & F & X). exists k. split; [|exact X]. rewrite T1. now apply find_slot_hit. }
      { intros s Hs Eid. assert (Hws : within s (snd e)). { clear - Hw Hs. induction Hw; [eapply within_sub; [exact Hs|constructor]|]. eapply within_sub; [eassumption|]. auto. }
        pose proof (so_tplid d RS e e s t He He Hws Hw Eid) as ->. apply tsize_sub in Hs. lia. }
      exists (o1 +++ o2), ((STpl (tpl_id t), w_n v + 1) :: t1). split; [eapply adds_trans; eassumption|]. split; [rewrite T2, T1; reflexivity|]. split.
      + intros s [<-|Hs]; [reflexivity|]. now apply K1.
      + intros u Hu. apply in_app_or in Hu.
        assert (Hu' : In u (l +++ [t])) by now apply in_or_app.
        cbn [find_slot]. destruct (slot_eqb (STpl (tpl_id u)) (STpl (tpl_id t))) eqn:Es.
        * apply slot_eqb_eq in Es. injection Es as Es. destruct (Hin u Hu') as (e' & He' & Hw'). pose proof (so_tplid d RS e' e u t He' He Hw' Hw Es) as ->.
          exists (w_n v + 1). split; [reflexivity|]. eapply template_at_mono; [|reflexivity|exact X2]. intros x y [[Y|Y]|Y]; [now left|right; now apply oin_l|right; now apply oin_r].
        * destruct Hu as [Hu|[<-|[]]]; [|rewrite (proj2 (slot_eqb_eq _ _) eq_refl) in Es; discriminate].
          destruct (L1 u Hu) as (k & F & X). exists k. split; [exact F|]. eapply template_at_mono; [|reflexivity|exact X]. intros x y [Y|Y]; [now left|right; now apply oin_l].
  Qed.

  (** imported pages only add their own numbers to the table *)
  Lemma put_imported_tab w : exists ts, w_tab (put_imported d w) = ts +++ w_tab w /\ of_kind 8 ts.
  Proof.
    unfold put_imported. cbv zeta. set (objs0 := e_shuffle E 10 _ (d_impobjs d)).
    assert (H1 : forall f (l : list (bytes * (bytes * list (Z * bytes)))), (forall v e, w_tab (f v e) = w_tab v) -> forall v, w_tab (fold_left f l v) = w_tab v).
    { intros f l H. induction l as [|x l IH]; intros v; [reflexivity|]. cbn [fold_left]. now rewrite IH. }
    rewrite H1.
    - assert (H2 : forall (l : list (bytes * (bytes * list (Z * bytes)))) off j v, exists ts,
        w_tab (iteri (fun j e w => set_tab ((SImp (fst e), off + j) :: w_tab w) w) j l v) = ts +++ w_tab v /\ of_kind 8 ts).
      { induction l as [|x l IH]; intros off j v; [exists []; split; [reflexivity|intros ? []]|]. cbn [iteri].
        destruct (IH off (j + 1) (set_tab ((SImp (fst x), off + j) :: w_tab v) v)) as (ts & T & K). exists (ts +++ [(SImp (fst x), off + j)]).
        split; [rewrite T; cbn [w_tab set_tab]; now rewrite <- app_assoc|]. intros s Hs. rewrite map_app, in_app_iff in Hs. destruct Hs as [Hs|[<-|[]]]; [auto|reflexivity]. }
      apply H2.
    - intros v e. destruct (patch _ _ _ _); rewrite tab_out, newobj_tab; reflexivity.
  Qed.
End Templates.
