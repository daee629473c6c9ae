(** The objects added by putresources, putbookmarks and the metadata. *)
From Verif Require Import Base TextModel Crypto DocModel DocSpec DocProofs DocWalk DocParts.
From Coq Require Import String.
Open Scope Z_scope.
Notation length := List.length.
Local Notation "a +++ b" := (List.app a b) (at level 60, right associativity, only parsing).

Ltac gtext := first
    [ match goal with H : textstr _ _ _ = _ |- _ => apply textstr_grow in H end
    | match goal with H : textstr16 _ _ _ = _ |- _ => apply textstr16_grow in H end ].
Ltac gfin := match goal with H : grow ?a ?b |- grow _ ?b => refine (grow_trans _ _ _ _ H); clear H end.
Ltac gauto := repeat first [ gtext | gfin | gstep ].

Section Res.
  Context {E : env} (d : doc (e_num E)).

  Lemma put_layer_pushes j l w : pushes w (put_layer d j l w).
  Proof. unfold put_layer. cbv zeta. destruct (textstr16 d (la_name l) (save (SLayer j) (newobj w))) eqn:H. eapply pushes_obj; [|gauto]; gauto. Qed.
  Lemma put_blend_pushes j b w : pushes w (put_blend j b w).
  Proof. unfold put_blend. cbv zeta. eapply pushes_obj; [|gauto]; gauto. Qed.
  Lemma pushes_save sl w w' : w_n w < w_n w' -> pushes w w' -> pushes w (save sl w').
  Proof. intros Hn [os H]. exists os. apply adds_save; [|exact H]. intros ->. pose proof (ad_n _ _ _ H) as X. change (w_n w' = w_n w + 0) in X. lia. Qed.
  Lemma put_grad_pushes j g w : pushes w (put_grad (E := E) j g w).
  Proof.
    unfold put_grad. destruct ((gr_tp g =? 2) || (gr_tp g =? 3)); cbv zeta.
    - apply pushes_save.
      + destruct (gr_tp g =? 2); [|destruct (gr_tp g =? 3)]; rewrite ?n_out; rewrite newobj_n; rewrite ?n_out; rewrite newobj_n; lia.
      + eapply pushes_obj; [|gauto]. eapply pushes_obj; [|gauto]. gauto.
    - apply pushes_save.
      + destruct (gr_tp g =? 2); [|destruct (gr_tp g =? 3)]; rewrite ?n_out; rewrite newobj_n; lia.
      + eapply pushes_obj; [|gauto]; gauto.
  Qed.
  Lemma put_spot_pushes e w : pushes w (put_spot E e w).
  Proof.
    unfold put_spot. destruct e as [name v]. cbv zeta. apply pushes_save.
    - rewrite ?n_out. rewrite newobj_n. lia.
    - eapply pushes_obj; [|gauto]; gauto.
  Qed.
  Lemma put_diff_pushes x w : pushes w (put_diff x w).
  Proof. unfold put_diff. cbv zeta. eapply pushes_obj; [|gauto]; gauto. Qed.

  (** ** Font files *)
  (** the bytes embedded for a font file *)
  Definition fontfile_data (file : bytes) (info : fontfile) (content : bytes) : bytes :=
    match slice file (zlen file - 2) (zlen file) with
    | Some x =>
        if negb (beqb x (bs ".z")) && (0 <? ff_len2 info) then
          match slice content 6 (ff_len1 info), slice content (6 + ff_len1 info + 6) (ff_len2 info) with
          | Some a, Some b => a +++ b
          | _, _ => content
          end
        else content
    | None => content
    end.

  Lemma fontfile_stream_adds info c data w v : cipok w -> cgrow (newobj w) v ->
    exists body, adds w (fontfile_stream d info c data v) [obj (w_n w + 1) body] /\ stream_body body (cipher d (w_n w + 1) data).
  Proof.
    intros Hc Hv. unfold fontfile_stream. cbv zeta.
    eapply (adds_stream_obj d w v _ _ (bs "<<") []); [exact Hc|exact Hv|now rewrite app_nil_r|reflexivity|exact I|].
    apply pgrow_out. destruct (0 <? ff_len2 info); [apply pgrow_out|]; apply pgrow_out; destruct c; [apply pgrow_out| |apply pgrow_out| ]; apply pgrow_refl.
  Qed.
  Lemma cgrow_panic w w' : cgrow w w' -> cgrow w (panic w').
  Proof.
    intros H. eapply cgrow_trans; [exact H|]. exists []. split; [reflexivity|]. split; [apply writes_panic0|reflexivity].
  Qed.
  Lemma fontfile_stream_panic info c data v : w_panic v = true -> w_panic (fontfile_stream d info c data v) = true.
  Proof.
    intros H. unfold fontfile_stream. cbv zeta.
    assert (G : forall b w, w_panic w = true -> w_panic (out (bs "endobj") (putstream d b w)) = true).
    { intros b w Hw. cbn. unfold putstream, encrypt. destruct (d_protect d); [|exact Hw]. now destruct (xor_stream _ _). }
    apply G. destruct (0 <? ff_len2 info), c; exact H.
  Qed.

  Lemma put_fontfile_cases e w :
    put_fontfile d e w = w \/ w_err (put_fontfile d e w) = true \/
    ff_utf8 (snd e) = false /\ w_err w = false /\ exists content, ff_content (snd e) = Some content /\
    exists c data v, put_fontfile d e w = fontfile_stream d (snd e) c data v /\
       (v = save (SFile (fst e)) (newobj w) /\ data = fontfile_data (fst e) (snd e) content \/ w_panic v = true).
  Proof.
    destruct e as [file info]. cbn [fst snd]. unfold put_fontfile. destruct (w_err w) eqn:Ee; [now left|]. destruct (ff_utf8 info); [now left|].
    right. destruct (ff_content info) as [content|]; [|now left]. right. split; [reflexivity|]. split; [reflexivity|].
    exists content. split; [reflexivity|].
    unfold fontfile_data. destruct (slice file (zlen file - 2) (zlen file)) as [x|].
    - destruct (negb (beqb x (bs ".z")) && (0 <? ff_len2 info)).
      + destruct (slice content 6 (ff_len1 info)) as [a|].
        * destruct (slice content (6 + ff_len1 info + 6) (ff_len2 info)) as [b|];
          (eexists _, _, _; split; [reflexivity|]); [left|right]; [split|]; reflexivity.
        * eexists _, _, _; split; [reflexivity|]. now right.
      + eexists _, _, _; split; [reflexivity|]. left. split; reflexivity.
    - destruct (negb false && (0 <? ff_len2 info)).
      + destruct (slice content 6 (ff_len1 info)) as [a|]; [destruct (slice content (6 + ff_len1 info + 6) (ff_len2 info)) as [b|]|];
        eexists _, _, _; (split; [reflexivity|]); right; reflexivity.
      + eexists _, _, _; (split; [reflexivity|]); right; reflexivity.
  Qed.
  Lemma put_fontfile_adds e w : cipok w -> ok (put_fontfile d e w) ->
    exists os, adds w (put_fontfile d e w) os /\
     (ff_utf8 (snd e) = false ->
      exists content, ff_content (snd e) = Some content /\ holds d (fontfile_data (fst e) (snd e) content) os).
  Proof.
    intros Hc Hok. destruct (put_fontfile_cases e w) as [H|[H|(Hu & He & content & Ec & c & data & v & H & Hv)]].
    - rewrite H in Hok |- *. exists []. split; [apply adds_refl|]. intros Hu. exfalso. revert H.
      destruct e as [file info]. cbn [snd] in Hu. unfold put_fontfile. destruct Hok as [He _]. rewrite He, Hu.
      destruct (ff_content info) as [content|].
      2:{ intros H. apply (f_equal w_err) in H. cbn in H. congruence. }
      intros H. apply (f_equal w_n) in H. revert H. cbv zeta.
      assert (G : forall v c data, w_n (fontfile_stream d info c data v) = w_n v).
      { clear. intros. unfold fontfile_stream, putstream, encrypt. destruct c, (0 <? ff_len2 info), (d_protect d); try reflexivity; cbv zeta; destruct (xor_stream _ _); reflexivity. }
      assert (N : w_n (save (SFile file) (newobj w)) = w_n w + 1) by (cbn; apply newobj_n).
      destruct (slice file _ _); [destruct (negb (beqb l (bs ".z")) && (0 <? ff_len2 info))|destruct (negb false && (0 <? ff_len2 info))];
      try (destruct (slice content 6 (ff_len1 info)); [destruct (slice content (6 + ff_len1 info + 6) (ff_len2 info))|]);
      rewrite G; cbn [w_n panic]; rewrite N; lia.
    - destruct Hok as [Hok _]. congruence.
    - rewrite H in Hok |- *. destruct Hv as [[Ev Ed]|Hv].
      + destruct (fontfile_stream_adds (snd e) c data w v Hc) as (body & A & S).
        { rewrite Ev. apply cgrow_save, cgrow_refl. }
        exists [obj (w_n w + 1) body]. split; [exact A|]. intros _. exists content. split; [exact Ec|].
        rewrite <- Ed. exists (w_n w + 1), body. split; [now left|exact S].
      + apply (fontfile_stream_panic (snd e) c data) in Hv. destruct Hok as [_ Hok]. congruence.
  Qed.
  Lemma put_fontfile_ok e w : ok (put_fontfile d e w) -> ok w.
  Proof.
    intros Hok. destruct (put_fontfile_cases e w) as [H|[H|(Hu & He & content & Ec & c & data & v & H & Hv)]].
    - now rewrite H in Hok.
    - destruct Hok; congruence.
    - rewrite H in Hok. destruct Hv as [[Ev Ed]|Hv].
      + split; [exact He|]. apply newobj_ok. subst v.
        destruct Hok as [_ Hok]. split; [rewrite newobj_err; exact He|].
        destruct (w_panic (newobj w)) eqn:Ep; [|reflexivity].
        rewrite (fontfile_stream_panic (snd e) c data (save (SFile (fst e)) (newobj w)) Ep) in Hok. discriminate.
      + apply (fontfile_stream_panic (snd e) c data) in Hv. destruct Hok as [_ Hok]. congruence.
  Qed.

  (** ** Fonts *)
  Lemma grow_writes_obj w v w2 os : adds w v os -> grow (newobj v) w2 -> exists body, adds w (out (bs "endobj") w2) (os +++ [obj (w_n v + 1) body]).
  Proof. intros H [s Hs]. exists s. eapply adds_trans; [exact H|now apply adds_obj]. Qed.
  Lemma pushes_cip w w' : pushes w w' -> cipok w -> cipok w'.
  Proof. intros [os A]. apply (ad_cip _ _ _ A). Qed.
  Lemma pushes_stream w v w3 l q data w2 p :
    pushes w v -> cipok w -> cgrow (newobj v) w2 ->
    l = p +++ bs "/Length " +++ dec (zlen data) +++ q -> clean p = true -> starts_nondigit q ->
    pgrow (out l w2) w3 ->
    exists os, adds w (out (bs "endobj") (putstream d data w3)) os /\ holds d data os.
  Proof.
    intros [os A] Hc Hg Hl Hp Hq Hw3.
    destruct (adds_stream_obj d v w2 w3 l p q data) as (body & A2 & S); auto. { apply (ad_cip _ _ _ A Hc). }
    exists (os +++ [obj (w_n v + 1) body]). split; [eapply adds_trans; eauto|].
    exists (w_n v + 1), body. split; [apply in_or_app; right; now left|exact S].
  Qed.
  Lemma holds_app_l data a b : holds d data a -> holds d data (a +++ b).
  Proof. apply (holds_mono d data [] a b). Qed.
  Lemma holds_app_r data a b : holds d data b -> holds d data (a +++ b).
  Proof. intros H. rewrite <- (app_nil_r b). now apply holds_mono. Qed.

  (** what putfonts embeds for a UTF-8 font *)
  Definition utf8_streams (fo : font) (os : list (Z * bytes)) : Prop :=
    holds d (e_to_unicode E) os /\ holds d (e_zlib E (fo_utf8 fo)) os /\
    exists gm, gid_map (fo_gids fo) gid_zero = Some gm /\ holds d (e_zlib E gm) os.

  Lemma utf8_streams_mono fo a b c : utf8_streams fo b -> utf8_streams fo (a +++ b +++ c).
  Proof. intros (H1 & H2 & gm & Eg & H3). split; [now apply holds_mono|]. split; [now apply holds_mono|]. exists gm. split; [exact Eg|now apply holds_mono]. Qed.

  Lemma pushes_pretab ts w w' : pushes (set_tab (ts +++ w_tab w) w) w' ->
    (2 <= w_n w -> Forall (fun e => 2 < snd e <= w_n w') ts) -> pushes w w'.
  Proof. intros [os A] H. exists os. eapply adds_pretab; [|exact A]. auto. Qed.

  Lemma put_font_core_pushes fo v : pushes v (put_font_core fo v) /\ w_n v < w_n (put_font_core fo v).
  Proof.
    unfold put_font_core. cbv zeta. split.
    - eapply pushes_obj; [|gauto]. gauto.
    - destruct (negb _ && negb _); rewrite ?n_out; rewrite newobj_n; lia.
  Qed.
  Lemma put_font_simple_pushes t1 nf fo v : pushes v (put_font_simple t1 nf fo v) /\ w_n v < w_n (put_font_simple t1 nf fo v).
  Proof.
    unfold put_font_simple. cbv zeta. set (t := width_text (fo_cw fo) 32 224). split.
    - destruct t; (eapply pushes_obj; [|gauto]; eapply pushes_obj; [|gauto]; eapply pushes_obj; [|gauto]; gauto).
    - destruct t; rewrite ?n_out; rewrite newobj_n; rewrite ?n_out, ?n_panic; rewrite newobj_n; rewrite ?n_out;
        (destruct (0 <? fo_diffn fo)); rewrite ?n_out; rewrite newobj_n; lia.
  Qed.
  Lemma putstream_panic b w : w_panic w = true -> w_panic (out (bs "endobj") (putstream d b w)) = true.
  Proof. intros Hw. cbn. unfold putstream, encrypt. destruct (d_protect d); [|exact Hw]. now destruct (xor_stream _ _). Qed.
  Lemma newobj_panic w : w_panic w = true -> w_panic (newobj w) = true.
  Proof. intros Hw. unfold newobj, set_off. destruct (_ && _); [exact Hw|reflexivity]. Qed.

  Lemma put_font_utf8_adds fo v : cipok v -> ok (put_font_utf8 d fo v) ->
    exists os, adds v (put_font_utf8 d fo v) os /\ utf8_streams fo os.
  Proof.
    intros Hcv Hok. unfold put_font_utf8 in Hok |- *. unfold utf8_streams. generalize dependent gid_zero. intros zero Hok.
    cbv zeta in Hok |- *.
    destruct (gid_map (fo_gids fo) zero) as [gm|] eqn:Eg.
    2:{ exfalso. destruct Hok as [_ Hok]. revert Hok. rewrite putstream_panic; [discriminate|].
        rewrite ?p_out. apply newobj_panic, putstream_panic. rewrite ?p_out. apply newobj_panic. reflexivity. }
    clear Hok.
    match goal with |- exists os, adds _ (out _ (putstream d _ (out _ (out _ (out _ (out _ (newobj (out _ (putstream d _ (out _ (newobj ?v5)))))))))) ) os /\ _ =>
      assert (P5 : exists os, adds v v5 os /\ holds d (e_to_unicode E) os) end.
    { match goal with |- exists os, adds v (out _ (out _ (newobj (out _ (out _ (newobj ?v3)))))) os /\ _ =>
        assert (P3 : exists os, adds v v3 os /\ holds d (e_to_unicode E) os) end.
      { eapply (pushes_stream v _ _ _ (bs ">>") _ _ (bs "<<")); [|exact Hcv|apply cgrow_refl|reflexivity|reflexivity|reflexivity|apply pgrow_refl].
        eapply pushes_obj; [|gauto]. eapply pushes_obj; [|gauto]. gauto. }
      destruct P3 as (os & A & H). eexists. split.
      - eapply adds_trans; [|eapply adds_obj, writes_out]. eapply adds_trans; [exact A|]. eapply adds_obj, writes_out.
      - now do 2 apply holds_app_l. }
    destruct P5 as (os & A & H).
    match goal with |- exists os, adds _ (out _ (putstream d _ (out _ (out _ (out _ (out _ (newobj (out _ (putstream d _ (out _ (newobj ?x)))))))))) ) os /\ _ =>
      generalize dependent x; intros v5 A end.
    match goal with |- exists os, adds _ (out _ (putstream d _ (out _ (out _ (out _ (out _ (newobj ?v6))))))) os /\ _ =>
      assert (P6 : exists os', adds v v6 os' /\ holds d (e_zlib E gm) os' /\ holds d (e_to_unicode E) os') end.
    { match goal with |- exists os, adds v (out _ (putstream d _ (out ?l (newobj v5)))) os /\ _ =>
        destruct (pushes_stream v5 v5 (out l (newobj v5)) l (bs "/Filter /FlateDecode>>") (e_zlib E gm) (newobj v5) (bs "<<")) as (o6 & A6 & H6) end;
        [apply pushes_refl|apply (ad_cip _ _ _ A Hcv)|apply cgrow_refl|reflexivity|reflexivity|reflexivity|apply pgrow_refl|].
      exists (os +++ o6). split; [eapply adds_trans; [exact A|exact A6]|]. split; [now apply holds_app_r|now apply holds_app_l]. }
    destruct P6 as (o6 & A6 & H6 & H6').
    match goal with |- exists os, adds _ (out _ (putstream d _ (out _ (out _ (out _ (out _ (newobj ?x))))))) os /\ _ => generalize dependent x; intros v6 A6 end.
    match goal with |- exists os, adds _ (out _ (putstream d ?b (out ?l4 (out ?l3 (out ?l2 (out ?l1 (newobj v6))))))) os /\ _ =>
      destruct (pushes_stream v6 v6 (out l4 (out l3 (out l2 (out l1 (newobj v6))))) l1 [] (e_zlib E (fo_utf8 fo)) (newobj v6) (bs "<<")) as (o7 & A7 & H7) end.
    { apply pushes_refl. } { apply (ad_cip _ _ _ A6 Hcv). } { apply cgrow_refl. } { now rewrite app_nil_r. } { reflexivity. } { exact I. }
    { do 3 apply pgrow_out. apply pgrow_refl. }
    exists (o6 +++ o7). split; [eapply adds_trans; [exact A6|exact A7]|].
    split; [now apply holds_app_l|]. split; [now apply holds_app_r|]. exists gm. split; [reflexivity|now apply holds_app_l].
  Qed.

  Lemma put_font_adds nf e w : cipok w -> ok (put_font d nf e w) ->
    exists os, adds w (put_font d nf e w) os /\ (fo_type (snd e) = FUtf8 -> utf8_streams (snd e) os).
  Proof.
    intros Hc Hok. destruct e as [key fo]. cbn [snd fst] in *. unfold put_font in Hok |- *.
    destruct (w_err w) eqn:Ee. { destruct Hok; congruence. }
    cbv zeta in Hok |- *. set (v := set_tab ((SFont key, w_n w + 1) :: w_tab w) w) in *.
    assert (Hcv : cipok v) by exact Hc.
    assert (Pre : forall w' os, adds v w' os -> os <> [] -> adds w w' os).
    { intros w' os A Hne. pose proof (ad_n _ _ _ A) as N. change (w_n v) with (w_n w) in N.
      assert (zlen os > 0) by (destruct os; [easy|]; rewrite zlen_cons; pose proof (zlen_nonneg os); lia).
      apply (adds_pretab [(SFont key, w_n w + 1)]); [|exact A].
      intros _ H2. constructor; [cbn; lia|constructor]. }
    assert (PreP : forall w', pushes v w' /\ w_n v < w_n w' -> exists os, adds w w' os).
    { intros w' [[os A] Hn]. exists os. apply (Pre _ _ A). intros ->. pose proof (ad_n _ _ _ A) as X. change (w_n w' = w_n v + 0) in X. lia. }
    destruct (fo_type fo) eqn:Et.
    - destruct (PreP _ (put_font_core_pushes fo v)) as [os A]. exists os. split; [exact A|discriminate].
    - destruct (PreP _ (put_font_simple_pushes true nf fo v)) as [os A]. exists os. split; [exact A|discriminate].
    - destruct (PreP _ (put_font_simple_pushes false nf fo v)) as [os A]. exists os. split; [exact A|discriminate].
    - destruct (put_font_utf8_adds fo v Hcv Hok) as (os & A & H). exists os. split; [|auto].
      apply Pre; [exact A|]. intros ->. destruct H as ((k & b & Hin & _) & _). destruct Hin.
    - destruct Hok; discriminate.
  Qed.

  (** ** Errors and panics are never undone *)
  Lemma encrypt_ok b w : ok (snd (encrypt d b w)) -> ok w.
  Proof. unfold encrypt. destruct (d_protect d); [|auto]. now destruct (xor_stream _ _). Qed.
  Lemma putstream_ok b w : ok (putstream d b w) -> ok w.
  Proof. unfold putstream. pose proof (encrypt_ok b w). destruct (encrypt d b w). exact H. Qed.
End Res.
Ltac okm H :=
  repeat (cbv zeta in H;
    lazymatch type of H with
    | ok (out _ _) => apply ok_out in H
    | ok (save _ _) => apply ok_save in H
    | ok (set_tab _ _) => apply ok_settab in H
    | ok (newobj _) => apply newobj_ok in H
    | ok (putstream _ _ _) => apply putstream_ok in H
    | ok (panic _) => destruct (ok_panic _ H)
    | ok (set_err _) => destruct (ok_seterr _ H)
    | ok (if ?c then _ else _) => destruct c
    | ok (match ?c with _ => _ end) => destruct c
    end); try exact H; try assumption.
Section Res2.
  Context {E : env} (d : doc (e_num E)).

  Lemma put_font_ok nf e w : ok (put_font d nf e w) -> ok w.
  Proof.
    destruct e as [key fo]. unfold put_font. destruct (w_err w) eqn:Ee; [auto|]. cbv zeta. destruct (fo_type fo); intros H.
    - unfold put_font_core in H. okm H.
    - unfold put_font_simple in H. set (t := width_text (fo_cw fo) 32 224) in H. destruct t; okm H.
    - unfold put_font_simple in H. set (t := width_text (fo_cw fo) 32 224) in H. destruct t; okm H.
    - unfold put_font_utf8 in H. generalize dependent gid_zero. intros z H. destruct (gid_map (fo_gids fo) z); okm H.
    - okm H.
  Qed.

  (** what putfonts embeds *)
  Definition fonts_held (os : list (Z * bytes)) : Prop :=
    (forall e, In e (keyed E 4 (d_sort d) (fun a b => by_key a b) (d_files d)) -> ff_utf8 (snd e) = false ->
       exists content, ff_content (snd e) = Some content /\ holds d (fontfile_data (fst e) (snd e) content) os) /\
    (forall e, In e (keyed E 5 (d_sort d) (fun a b => by_key a b) (d_fonts d)) -> fo_type (snd e) = FUtf8 -> utf8_streams d (snd e) os).

  Lemma put_fonts_adds w : cipok w -> ok (put_fonts d w) ->
    exists os, adds w (put_fonts d w) os /\ fonts_held os.
  Proof.
    intros Hc. unfold put_fonts. destruct (w_err w) eqn:Ee. { intros [H _]; congruence. }
    cbv zeta. intros Hok.
    set (w1 := fold_left (fun w x => put_diff x w) (d_diffs d) w) in *.
    assert (P1 : pushes w w1) by (apply pushes_fold; [intros; apply put_diff_pushes|apply pushes_refl]).
    destruct P1 as [o1 A1].
    set (w2 := fold_left (fun w x => put_fontfile d x w) _ w1) in *.
    assert (Hok2 : ok w2). { eapply ok_fold; [|exact Hok]. intros. eapply put_font_ok; eauto. }
    destruct (adds_fold_ok (fun w x => put_fontfile d x w)
       (fun e os => ff_utf8 (snd e) = false -> exists content, ff_content (snd e) = Some content /\ holds d (fontfile_data (fst e) (snd e) content) os)
       (keyed E 4 (d_sort d) (fun a b => by_key a b) (d_files d)) w1) as (o2 & A2 & H2).
    { intros x a b c H Hu. destruct (H Hu) as (co & Ec & Hh). exists co. split; [exact Ec|now apply holds_mono]. }
    { intros. eapply put_fontfile_ok; eauto. }
    { intros. now apply put_fontfile_adds. }
    { apply (ad_cip _ _ _ A1 Hc). }
    { exact Hok2. }
    destruct (adds_fold_ok (fun w' x => put_font d (w_n w) x w')
       (fun e os => fo_type (snd e) = FUtf8 -> utf8_streams d (snd e) os)
       (keyed E 5 (d_sort d) (fun a b => by_key a b) (d_fonts d)) w2) as (o3 & A3 & H3).
    { intros x a b c H Hu. apply utf8_streams_mono. auto. }
    { intros. eapply put_font_ok; eauto. }
    { intros. now apply put_font_adds. }
    { apply (ad_cip _ _ _ A2 (ad_cip _ _ _ A1 Hc)). }
    { exact Hok. }
    exists (o1 +++ o2 +++ o3). split; [eapply adds_trans; [exact A1|eapply adds_trans; [exact A2|exact A3]]|].
    split.
    - intros e He Hu. destruct (H2 e He Hu) as (co & Ec & Hh). exists co. split; [exact Ec|]. now apply holds_mono.
    - intros e He Hu. rewrite app_assoc. rewrite <- (app_nil_r o3). apply utf8_streams_mono. auto.
  Qed.
  Lemma put_fonts_ok w : ok (put_fonts d w) -> ok w.
  Proof.
    unfold put_fonts. destruct (w_err w); [auto|]. cbv zeta. intros H.
    apply ok_fold in H; [|intros; eapply put_font_ok; eauto].
    apply ok_fold in H; [|intros; eapply put_fontfile_ok; eauto].
    apply ok_fold in H; [exact H|]. intros x v Hv. unfold put_diff in Hv. okm Hv.
  Qed.
End Res2.
