(** The text of a page object, for C63. *)
From Verif Require Import Base TextModel TextSpec TextProofs Crypto DocModel DocSpec DocProofs DocWalk PageSpec.
From Coq Require Import String.
Import ListNotations.
Open Scope Z_scope.
Notation length := List.length.
Local Notation "a +++ b" := (List.app a b) (at level 60, right associativity, only parsing).

Section Page.
  Context {E : env} (d : doc (e_num E)).
  Notation wst := DocModel.wst.

  Definition att_of (tab : list (slot * Z)) (p : Z) : Z :=
    match find_slot (SAtt p) tab with
    | Some v => v
    | None => match at_ (d_atts d) p with Some a => at_objnum a | None => 0 end
    end.

  Lemma textstr_string s w : string_of d s (fst (textstr d s w)).
  Proof.
    unfold textstr, string_of, encrypt. destruct (d_protect d) as [p|].
    - match goal with |- context [xor_stream ?st s] => pose proof (xor_stream_length st s) as L; destruct (xor_stream st s) as [r st'] end.
      cbn [fst] in *. exists r. split; [|split; [exact L|discriminate]].
      intros rest. rewrite <- (textstring_roundtrip r rest). reflexivity.
    - cbn [fst]. exists s. split; [|split; reflexivity]. intros rest. rewrite <- (textstring_roundtrip s rest). reflexivity.
  Qed.
  Lemma textstr_ok s w : ok (snd (textstr d s w)) -> ok w.
  Proof. exact (wr_ok _ _ _ (textstr_writes d s w)). Qed.
  Lemma textstr_tab s w : w_tab (snd (textstr d s w)) = w_tab w.
  Proof. unfold textstr, encrypt. destruct (d_protect d); [|reflexivity]. now destruct (xor_stream _ s). Qed.
  Lemma textstr16_string s w : ok (snd (textstr16 d s w)) ->
    ok w /\ exists b, utf8toutf16 s true = Ret b /\ string_of d b (fst (textstr16 d s w)).
  Proof.
    unfold textstr16, utf16. destruct (utf8toutf16 s true) as [b| |]; intros H.
    - split; [exact (textstr_ok _ _ H)|]. exists b. split; [reflexivity|]. apply textstr_string.
    - apply textstr_ok in H. now apply ok_panic in H.
    - apply textstr_ok in H. now apply ok_panic in H.
  Qed.
  Lemma textstr16_tab s w : w_tab (snd (textstr16 d s w)) = w_tab w.
  Proof. unfold textstr16, utf16. destruct (utf8toutf16 s true); now rewrite textstr_tab. Qed.

  Lemma link_annots_text l : forall w, ok (snd (link_annots d l w)) ->
    ok w /\ w_tab (snd (link_annots d l w)) = w_tab w /\
    exists ls, Forall2 (link_annotation d) l ls /\ fst (link_annots d l w) = List.concat ls.
  Proof.
    induction l as [|lk l IH]; intros w; cbn [link_annots].
    - intros H. split; [exact H|]. split; [reflexivity|]. exists []. split; [constructor|reflexivity].
    - destruct (lk_link lk =? 0) eqn:E0.
      + destruct (textstr d (lk_uri lk) w) as [t1 w1] eqn:E1. pose proof (IH w1) as IH1.
        destruct (link_annots d l w1) as [r w2] eqn:E2. cbn [fst snd] in *. intros H. destruct (IH1 H) as (O & T & ls & F & ->).
        pose proof (textstr_ok (lk_uri lk) w) as O1. pose proof (textstr_tab (lk_uri lk) w) as T1. pose proof (textstr_string (lk_uri lk) w) as S1.
        rewrite E1 in O1, T1, S1. cbn [fst snd] in O1, T1, S1.
        split; [auto|]. split; [congruence|]. eexists (_ :: ls). split; [constructor; [|exact F]|].
        * exists (bs "/A <</S /URI /URI " +++ t1 +++ bs ">>>>"). split; [reflexivity|]. split; [intros _; eauto|]. intros X. exfalso. apply X. lia.
        * unfold rect. cbn [List.concat]. rewrite <- ?app_assoc. reflexivity.
      + destruct (at_ (d_links d) (lk_link lk)) as [[p y]|] eqn:Ea.
        * pose proof (IH w) as IH1. destruct (link_annots d l w) as [r w2] eqn:E2. cbn [fst snd] in *. intros H. destruct (IH1 H) as (O & T & ls & F & ->).
          split; [auto|]. split; [congruence|]. eexists (_ :: ls). split; [constructor; [|exact F]|].
          -- eexists. split; [reflexivity|]. split; [intros X; exfalso; lia|]. intros _. exists p, y. split; [exact Ea|reflexivity].
          -- unfold rect, height_of. cbn [List.concat]. rewrite <- ?app_assoc. reflexivity.
        * pose proof (IH (panic w)) as IH1. destruct (link_annots d l (panic w)) as [r w2] eqn:E2. cbn [fst snd] in *. intros H.
          destruct (IH1 H) as (O & _). now apply ok_panic in O.
  Qed.

  Lemma annot_links_text l : forall w, ok (snd (annot_links d l w)) ->
    ok w /\ w_tab (snd (annot_links d l w)) = w_tab w /\
    exists fs, Forall2 (file_annotation d (att_of (w_tab w))) l fs /\ fst (annot_links d l w) = List.concat fs.
  Proof.
    induction l as [|an l IH]; intros w; cbn [annot_links].
    - intros H. split; [exact H|]. split; [reflexivity|]. exists []. split; [constructor|reflexivity].
    - cbv zeta. destruct (at_ (d_atts d) (an_att an)) as [a|] eqn:Ea.
      + cbn [fst snd].
        destruct (textstr16 d (at_desc a) w) as [t1 w1] eqn:E1. destruct (textstr16 d (at_name a) w1) as [t2 w2] eqn:E2.
        pose proof (IH w2) as IH1. destruct (annot_links d l w2) as [r w3] eqn:E3. cbn [fst snd] in *. intros H.
        destruct (IH1 H) as (O & T & fs & F & ->).
        pose proof (textstr16_tab (at_name a) w1) as T2. pose proof (textstr16_string (at_name a) w1) as S2.
        pose proof (textstr16_tab (at_desc a) w) as T1. pose proof (textstr16_string (at_desc a) w) as S1.
        rewrite E2 in T2, S2. rewrite E1 in T1, S1. cbn [fst snd] in T1, T2, S1, S2.
        destruct (S2 O) as (O1 & n16 & N1 & N2). destruct (S1 O1) as (O0 & d16 & D1 & D2).
        split; [exact O0|]. split; [congruence|]. eexists (_ :: fs). split; [constructor|].
        * exists a, t1, t2, d16, n16. split; [exact Ea|]. split; [exact D1|]. split; [exact N1|]. split; [exact D2|]. split; [exact N2|]. reflexivity.
        * replace (w_tab w) with (w_tab w2) by congruence. exact F.
        * unfold att_num, appearance, rect, att_of. rewrite T2, T1. cbn [List.concat]. unfold nl, eol.
          change (bs " /T ") with (bs " " +++ bs "/T "). change (bs " /AP << /N ") with (bs " " +++ bs "/AP << /N ").
          rewrite <- ?app_assoc. reflexivity.
      + destruct (textstr16 d _ (panic w)) as [t1 w1] eqn:E1. destruct (textstr16 d _ w1) as [t2 w2] eqn:E2.
        pose proof (IH w2) as IH1. destruct (annot_links d l w2) as [r w3] eqn:E3. cbn [fst snd] in *. intros H.
        destruct (IH1 H) as (O & _). pose proof (wr_ok _ _ _ (textstr16_writes d [] w1)) as X. rewrite E2 in X. apply X in O.
        pose proof (wr_ok _ _ _ (textstr16_writes d [] (panic w))) as Y. rewrite E1 in Y. apply Y in O. now apply ok_panic in O.
  Qed.

  Lemma textstr_buf s w : w_buf (snd (textstr d s w)) = w_buf w.
  Proof. rewrite (wr_buf _ _ _ (textstr_writes d s w)). apply app_nil_r. Qed.
  Lemma textstr16_buf s w : w_buf (snd (textstr16 d s w)) = w_buf w.
  Proof. rewrite (wr_buf _ _ _ (textstr16_writes d s w)). apply app_nil_r. Qed.
  Lemma link_annots_buf l : forall w, w_buf (snd (link_annots d l w)) = w_buf w.
  Proof.
    induction l as [|lk l IH]; intros w; cbn [link_annots]; [reflexivity|].
    destruct (lk_link lk =? 0).
    - pose proof (textstr_buf (lk_uri lk) w) as B. destruct (textstr d (lk_uri lk) w) as [t1 w1]. specialize (IH w1).
      destruct (link_annots d l w1). cbn [snd] in *. congruence.
    - destruct (at_ (d_links d) (lk_link lk)) as [[p y]|].
      + specialize (IH w). destruct (link_annots d l w). exact IH.
      + specialize (IH (panic w)). destruct (link_annots d l (panic w)). exact IH.
  Qed.
  Lemma annot_links_buf l : forall w, w_buf (snd (annot_links d l w)) = w_buf w.
  Proof.
    induction l as [|an l IH]; intros w; cbn [annot_links]; [reflexivity|]. cbv zeta.
    destruct (at_ (d_atts d) (an_att an)) as [a|]; cbn [fst snd].
    - pose proof (textstr16_buf (at_desc a) w) as B1. destruct (textstr16 d (at_desc a) w) as [t1 w1].
      pose proof (textstr16_buf (at_name a) w1) as B2. destruct (textstr16 d (at_name a) w1) as [t2 w2].
      specialize (IH w2). destruct (annot_links d l w2). cbn [snd] in *. congruence.
    - pose proof (textstr16_buf [] (panic w)) as B1. destruct (textstr16 d [] (panic w)) as [t1 w1].
      pose proof (textstr16_buf [] w1) as B2. destruct (textstr16 d [] w1) as [t2 w2].
      specialize (IH w2). destruct (annot_links d l w2). cbn [snd] in *. change (w_buf (panic w)) with (w_buf w) in B1. congruence.
  Qed.

  Lemma boxes_text l : forall w,
    w_tab (fold_left (fun w b => let '(t, (x, y, wd, ht)) := b in
               out (bs "/" +++ t +++ bs " [" +++ e_fmt2 E x +++ bs " " +++ e_fmt2 E y +++ bs " " +++ e_fmt2 E wd +++ bs " " +++ e_fmt2 E ht +++ bs "]") w) l w) = w_tab w /\
    w_buf (fold_left (fun w b => let '(t, (x, y, wd, ht)) := b in
               out (bs "/" +++ t +++ bs " [" +++ e_fmt2 E x +++ bs " " +++ e_fmt2 E y +++ bs " " +++ e_fmt2 E wd +++ bs " " +++ e_fmt2 E ht +++ bs "]") w) l w)
    = w_buf w +++ List.concat (map page_box l).
  Proof.
    induction l as [|[t [[[x y] wd] ht]] l IH]; intros w; cbn [fold_left].
    - split; [reflexivity|]. cbn. now rewrite app_nil_r.
    - match goal with |- context [fold_left ?f l ?u] => set (v := u); destruct (IH v) as [IH1 IH2] end.
      split; [exact IH1|]. refine (eq_trans IH2 _). cbn [map List.concat]. rewrite app_assoc. f_equal.
  Qed.

  Lemma page_head_text pg w : ok (page_head d pg w) ->
    w_tab (page_head d pg w) = w_tab w /\
    exists t, w_buf (page_head d pg w) = w_buf w +++ (bs "<</Type /Page" +++ nl +++ bs "/Parent 1 0 R" +++ nl +++ t) /\
      page_entries d (att_of (w_tab w)) (e_shuffle E 3 _ (pg_boxes pg)) (version2 d) pg t.
  Proof.
    unfold page_head. cbv zeta.
    set (w0 := out (bs "/Parent 1 0 R") (out (bs "<</Type /Page") w)).
    assert (B0 : w_buf w0 = w_buf w +++ (bs "<</Type /Page" +++ nl +++ bs "/Parent 1 0 R" +++ nl)).
    { unfold w0. cbn [w_buf out set_buf]. rewrite <- ?app_assoc. reflexivity. }
    assert (T0 : w_tab w0 = w_tab w) by reflexivity. clearbody w0.
    set (w1 := match pg_size pg with Some (wd, ht) => _ | None => w0 end).
    assert (B1 : w_buf w1 = w_buf w0 +++ media_box (pg_size pg)).
    { unfold w1, media_box, line. destruct (pg_size pg) as [[wd ht]|]; [|now rewrite app_nil_r]. cbn [w_buf out set_buf]. unfold nl, eol. rewrite <- ?app_assoc. reflexivity. }
    assert (T1 : w_tab w1 = w_tab w) by (unfold w1; destruct (pg_size pg) as [[wd ht]|]; exact T0). clearbody w1.
    destruct (boxes_text (e_shuffle E 3 _ (pg_boxes pg)) w1) as [T2 B2].
    set (w2 := fold_left _ _ w1) in *. clearbody w2.
    set (w3 := out (bs "/Resources 2 0 R") w2).
    assert (B3 : w_buf w3 = w_buf w2 +++ line (bs "/Resources 2 0 R")).
    { unfold w3, line. cbn [w_buf out set_buf]. unfold nl, eol. rewrite <- ?app_assoc. reflexivity. }
    assert (T3 : w_tab w3 = w_tab w) by (change (w_tab w2 = w_tab w); congruence). clearbody w3.
    set (w4 := if 0 <? zlen (pg_links pg) + zlen (pg_annots pg) then _ else w3).
    assert (G : ok w4 -> w_tab w4 = w_tab w /\ exists t, w_buf w4 = w_buf w3 +++ t /\ annotations d (att_of (w_tab w)) pg t).
    { unfold w4. pose proof (zlen_nonneg (pg_links pg)) as Z1. pose proof (zlen_nonneg (pg_annots pg)) as Z2.
      destruct (0 <? zlen (pg_links pg) + zlen (pg_annots pg)) eqn:Ec.
      - pose proof (link_annots_text (pg_links pg) w3) as L1.
        assert (BL : w_buf (snd (link_annots d (pg_links pg) w3)) = w_buf w3) by (apply link_annots_buf).
        destruct (link_annots d (pg_links pg) w3) as [t1 u1]. cbn [fst snd] in *.
        pose proof (annot_links_text (pg_annots pg) u1) as L2.
        assert (BA : w_buf (snd (annot_links d (pg_annots pg) u1)) = w_buf u1) by (apply annot_links_buf).
        destruct (annot_links d (pg_annots pg) u1) as [t2 u2]. cbn [fst snd] in *. intros H. apply ok_out in H.
        destruct (L2 H) as (O2 & T5 & fs & F2 & ->). destruct (L1 O2) as (O1 & T4 & ls & F1 & ->).
        split; [cbn [w_tab out set_buf]; congruence|]. eexists. split; [|right; split; [|exists ls, fs; split; [exact F1|split; [|reflexivity]]]].
        + unfold line. cbn [w_buf out set_buf]. rewrite BA, BL. unfold nl, eol. rewrite <- ?app_assoc. reflexivity.
        + destruct (pg_links pg) as [|? ?]; [|left; discriminate]. right. intros X. rewrite X in Ec. discriminate Ec.
        + rewrite T4, T3 in F2. exact F2.
      - intros _. split; [exact T3|]. exists []. split; [now rewrite app_nil_r|]. left.
        destruct (pg_links pg) as [|x l]; [|rewrite zlen_cons in Ec; pose proof (zlen_nonneg l); lia].
        destruct (pg_annots pg) as [|x l]; [|rewrite zlen_cons in Ec; pose proof (zlen_nonneg l); lia]. auto. }
    clearbody w4. intros Hok.
    assert (O4 : ok w4) by (destruct (bltb _ _); [now apply ok_out in Hok|exact Hok]).
    destruct (G O4) as (T4 & an & B4 & A4). split; [destruct (bltb _ _); exact T4|].
    exists (media_box (pg_size pg) +++ List.concat (map page_box (e_shuffle E 3 _ (pg_boxes pg))) +++ line (bs "/Resources 2 0 R") +++ an +++
          (if bltb (bs "1.3") (version2 d) then line (bs "/Group <</Type /Group /S /Transparency /CS /DeviceRGB>>") else [])).
    split; [|exists an; split; [exact A4|reflexivity]].
    destruct (bltb _ _).
    - cbn [w_buf out set_buf]. rewrite B4, B3, B2, B1, B0. unfold line, nl, eol. rewrite <- ?app_assoc. reflexivity.
    - rewrite B4, B3, B2, B1, B0. rewrite app_nil_r. rewrite <- ?app_assoc. reflexivity.
  Qed.
End Page.
