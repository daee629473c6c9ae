(** Proofs for C62: the exact objects written by putresources and the exact resource dictionary. *)
From Verif Require Import Base TextModel Crypto DocModel DocSpec DocSort DocProofs DocWalk DocParts DocRes DocRes2 DocEnd DocXref DocLayout ResSpec.
From Coq Require Import String Permutation.
Open Scope Z_scope.
Notation length := List.length.
Local Notation "a +++ b" := (List.app a b) (at level 60, right associativity, only parsing).

(** ** The objects between two states are determined *)
Lemma app_len_inj {A} (a b c e : list A) : a +++ b = c +++ e -> zlen a = zlen c -> a = c /\ b = e.
Proof.
  revert c. induction a as [|x a IH]; intros [|y c] H Hl; rewrite ?zlen_cons in Hl; try (rewrite zlen_nil in Hl).
  - split; [reflexivity|exact H].
  - pose proof (zlen_nonneg c). lia.
  - pose proof (zlen_nonneg a). lia.
  - injection H as -> H. destruct (IH c H) as [-> ->]; [lia|]. now split.
Qed.
Lemma render_inj a : forall b, map fst a = map fst b ->
  (forall x o y x' o' y', a = x +++ o :: y -> b = x' +++ o' :: y' -> length x = length x' -> zlen (render x) = zlen (render x')) ->
  render a = render b -> a = b.
Proof.
  induction a as [|o a IH]; intros [|o' b] Hf Hp Hr; try discriminate; [reflexivity|].
  injection Hf as Ho Hf. change (objtext o +++ render a = objtext o' +++ render b) in Hr.
  assert (Hl : zlen (objtext o) = zlen (objtext o')).
  { destruct a as [|p a], b as [|p' b]; try discriminate.
    - change (render []) with (@nil Z) in Hr. rewrite !app_nil_r in Hr. now rewrite Hr.
    - pose proof (Hp [o] p a [o'] p' b eq_refl eq_refl eq_refl) as X. unfold render in X. cbn [map List.concat] in X. now rewrite !app_nil_r in X. }
  destruct (app_len_inj _ _ _ _ Hr Hl) as [E1 E2]. f_equal.
  - destruct o as [k s], o' as [k' s']. cbn [fst] in Ho. subst k'. unfold objtext in E1. cbn [fst snd] in E1. do 3 apply app_inv_head in E1. now subst.
  - apply IH; [exact Hf| |exact E2]. intros x p y x' p' y' -> -> Hx.
    pose proof (Hp (o :: x) p y (o' :: x') p' y' eq_refl eq_refl ltac:(cbn [length]; congruence)) as X.
    change (zlen (objtext o +++ render x) = zlen (objtext o' +++ render x')) in X. rewrite !zlen_app in X. lia.
Qed.
Lemma nth_split_fst {A} (a b : list (Z * A)) x o y x' o' y' :
  map fst a = map fst b -> a = x +++ o :: y -> b = x' +++ o' :: y' -> length x = length x' -> fst o = fst o'.
Proof.
  intros H -> -> Hl. rewrite !map_app in H. cbn [map] in H.
  assert (Hm : zlen (map fst x) = zlen (map fst x')) by (unfold zlen; rewrite !map_length; lia).
  destruct (app_len_inj _ _ _ _ H Hm) as [_ E]. now injection E.
Qed.
Lemma adds_unique w w' a b : 2 <= w_n w -> lenok w -> adds w w' a -> adds w w' b -> a = b.
Proof.
  intros H2 Hl A B.
  assert (Hlen : length a = length b). { pose proof (ad_n _ _ _ A). pose proof (ad_n _ _ _ B). unfold zlen in *. lia. }
  assert (Hf : map fst a = map fst b). { rewrite (ad_nums _ _ _ A), (ad_nums _ _ _ B). now rewrite Hlen. }
  apply render_inj; [exact Hf| |].
  - intros x o y x' o' y' Ea Eb Hx. pose proof (nth_split_fst _ _ _ _ _ _ _ _ Hf Ea Eb Hx) as Ho.
    pose proof (ad_new _ _ _ A H2 Hl _ _ _ Ea) as X. pose proof (ad_new _ _ _ B H2 Hl _ _ _ Eb) as Y. rewrite Ho, Y in X.
    injection X as X. rewrite !zlen_app in X. lia.
  - pose proof (ad_buf _ _ _ A) as X. rewrite (ad_buf _ _ _ B) in X. now apply app_inv_head in X.
Qed.

(** ** Exact text of an object *)
Lemma adds_obj_eq w w2 s body : writes (newobj w) w2 s -> body = s -> adds w (out (bs "endobj") w2) [obj (w_n w + 1) body].
Proof. intros H ->. now apply adds_obj. Qed.
Lemma writes_eq w w' a b : writes w w' a -> b = a -> writes w w' b.
Proof. now intros H ->. Qed.
Ltac wr1 := lazymatch goal with
  | |- writes ?w ?w _ => apply writes_refl
  | |- writes _ (out _ _) _ => apply writes_snoc
  | |- writes _ (save _ _) _ => eapply writes_trans; [|apply writes_save]
  | |- writes _ (set_tab _ _) _ => fail
  end.
Ltac txt := cbn [app]; change eol with nl; rewrite ?app_nil_r; repeat rewrite <- app_assoc; cbn [app]; reflexivity.

Section X.
  Context {E : env} (d : doc (e_num E)).
  Local Notation objs := (list (Z * bytes)).
  Definition Oin (os : objs) (k : Z) (b : bytes) : Prop := In (obj k b) os.
  Local Notation S := (cipher d).

  Lemma adds_stream_eq w w2 dict dict' data :
    cipok w -> writes (newobj w) w2 dict' -> w_cip w2 = w_cip (newobj w) -> dict = dict' ->
    exists os, adds w (out (bs "endobj") (putstream d data w2)) os /\ os = [obj (w_n w + 1) (dict +++ bs "stream" +++ eol +++ S (w_n w + 1) data +++ eol +++ bs "endstream" +++ eol)].
  Proof.
    intros Hc Hw Hp ->. eexists. split; [eapply adds_stream; eassumption|]. reflexivity.
  Qed.

  (** *** one object each *)
  Lemma put_layer_exact j l w : cipok w -> ok (put_layer d j l w) ->
    exists os, adds w (put_layer d j l w) os /\ w_tab (put_layer d j l w) = (SLayer j, w_n w + 1) :: w_tab w /\
      layer_at (Oin os) S (w_n w + 1) l.
  Proof.
    intros Hc Hok. unfold put_layer in *. cbv zeta in *. unfold textstr16, utf16 in *.
    destruct (utf8toutf16 (la_name l) true) as [t| |] eqn:Eu.
    - destruct (textstr d t (save (SLayer j) (newobj w))) as [x v] eqn:Et.
      pose proof (textstr_writes d t (save (SLayer j) (newobj w))) as W. rewrite Et in W. cbn [snd] in W.
      assert (Hx : x = bs "(" +++ escape (S (w_n w + 1) t) +++ bs ")").
      { pose proof (textstr_fresh d t (save (SLayer j) (newobj w))) as F. rewrite Et in F. cbn [fst] in F. rewrite F.
        - rewrite n_save, newobj_n. reflexivity.
        - intros m st. cbn [w_cip save set_tab w_n]. rewrite newobj_cip, newobj_n. intros X. apply Hc in X. lia. }
      eexists. split; [|split].
      + eapply adds_obj_eq; [|reflexivity]. apply writes_snoc. eapply writes_trans; [apply writes_save|exact W].
      + rewrite !tab_out. assert (Tv : w_tab v = w_tab (save (SLayer j) (newobj w))).
        { revert Et. unfold textstr, encrypt. destruct (d_protect d); [destruct (xor_stream _ _)|]; intros X; injection X as _ <-; reflexivity. }
        rewrite Tv. cbn [w_tab save set_tab]. now rewrite newobj_tab, newobj_n.
      + exists t. split; [exact Eu|]. left. f_equal. rewrite Hx. txt.
    - exfalso. destruct (textstr d [] (panic (save (SLayer j) (newobj w)))) as [x v] eqn:Et.
      do 2 apply ok_out in Hok. pose proof (textstr_writes d [] (panic (save (SLayer j) (newobj w)))) as W. rewrite Et in W. cbn [snd] in W.
      apply (wr_ok _ _ _ W) in Hok. destruct Hok; discriminate.
    - exfalso. destruct (textstr d [] (panic (save (SLayer j) (newobj w)))) as [x v] eqn:Et.
      do 2 apply ok_out in Hok. pose proof (textstr_writes d [] (panic (save (SLayer j) (newobj w)))) as W. rewrite Et in W. cbn [snd] in W.
      apply (wr_ok _ _ _ W) in Hok. destruct Hok; discriminate.
  Qed.
  Lemma put_blend_exact j b w :
    exists os, adds w (put_blend j b w) os /\ w_tab (put_blend j b w) = (SBlend j, w_n w + 1) :: w_tab w /\ blend_at (Oin os) (w_n w + 1) b.
  Proof.
    unfold put_blend. cbv zeta. eexists. split; [|split].
    - eapply adds_obj_eq; [repeat wr1|reflexivity].
    - rewrite !tab_out. cbn [w_tab save set_tab]. now rewrite newobj_tab, newobj_n.
    - left. f_equal. txt.
  Qed.
  Lemma put_grad_exact j g w : gr_tp g = 2 \/ gr_tp g = 3 ->
    exists os, adds w (put_grad (E := E) j g w) os /\ w_tab (put_grad (E := E) j g w) = (SGrad j, w_n w + 2) :: w_tab w /\ gradient_at (Oin os) (w_n w + 2) g.
  Proof.
    intros Ht. unfold put_grad. replace ((gr_tp g =? 2) || (gr_tp g =? 3)) with true by lia. cbv zeta.
    set (w1 := out (bs "endobj") (out _ (newobj w))).
    assert (N1 : w_n w1 = w_n w + 1) by (unfold w1; rewrite !n_out; apply newobj_n).
    assert (T1 : w_tab w1 = w_tab w) by (unfold w1; rewrite !tab_out; apply newobj_tab).
    assert (A1 : adds w w1 [obj (w_n w + 1) (bs "<</FunctionType 2 /Domain [0.0 1.0] /C0 [" +++ gr_c1 g +++ bs "] /C1 [" +++ gr_c2 g +++ bs "] /N 1>>" +++ nl)]).
    { unfold w1. eapply adds_obj_eq; [repeat wr1|]. txt. }
    clearbody w1.
    destruct Ht as [Ht|Ht]; rewrite Ht; cbn [Z.eqb Pos.eqb];
    (eexists; split; [|split];
     [apply adds_save; [|eapply adds_trans; [exact A1|eapply adds_obj_eq; [repeat wr1|reflexivity]]]; discriminate
     |cbn [w_tab save set_tab]; rewrite !tab_out, !n_out, newobj_tab, newobj_n, T1, N1; do 2 f_equal; lia
     |exists (w_n w + 1); split; [left; f_equal; txt|]; right; left; unfold obj; apply f_equal2; [lia|]; apply f_equal2; [|reflexivity]; rewrite Ht, N1; cbn [Z.eqb Pos.eqb]; unfold ref; txt]).
  Qed.
  Lemma replace_space name : replace_all (bs " ") (bs "#20") name = escape_name name.
  Proof.
    change (bs " ") with [32]. rewrite replace_all_byte. unfold escape_name. rewrite flat_map_concat_map. f_equal.
    apply map_ext. intros c. now rewrite Z.eqb_sym.
  Qed.
  Lemma put_spot_exact e w :
    exists os, adds w (put_spot E e w) os /\ w_tab (put_spot E e w) = (SSpot (fst e), w_n w + 1) :: w_tab w /\
      spot_at (E := E) (Oin os) (w_n w + 1) (fst e) (snd e).
  Proof.
    destruct e as [name v]. unfold put_spot. cbv zeta. cbn [fst snd]. eexists. split; [|split].
    - apply adds_save; [|eapply adds_obj_eq; [repeat wr1|reflexivity]]. discriminate.
    - cbn [w_tab save set_tab]. rewrite !tab_out, !n_out, newobj_tab, newobj_n. reflexivity.
    - left. f_equal. rewrite replace_space. txt.
  Qed.
  Lemma put_diffs_exact l w :
    exists os, adds w (fold_left (fun w x => put_diff x w) l w) os /\ w_tab (fold_left (fun w x => put_diff x w) l w) = w_tab w /\
      w_err (fold_left (fun w x => put_diff x w) l w) = w_err w /\
      forall i diff, nth_error l i = Some diff ->
        Oin os (w_n w + 1 + Z.of_nat i) (bs "<</Type /Encoding /BaseEncoding /WinAnsiEncoding /Differences [" +++ diff +++ bs "]>>" +++ eol).
  Proof.
    revert w. induction l as [|x l IH]; intros w.
    - exists []. split; [apply adds_refl|]. split; [reflexivity|]. split; [reflexivity|]. intros [|i] ? H; discriminate.
    - cbn [fold_left]. destruct (IH (put_diff x w)) as (os & A & T & Er & H).
      assert (A1 : adds w (put_diff x w) [obj (w_n w + 1) (bs "<</Type /Encoding /BaseEncoding /WinAnsiEncoding /Differences [" +++ x +++ bs "]>>" +++ eol)]).
      { unfold put_diff. cbv zeta. eapply adds_obj_eq; [repeat wr1|]. txt. }
      exists ([obj (w_n w + 1) (bs "<</Type /Encoding /BaseEncoding /WinAnsiEncoding /Differences [" +++ x +++ bs "]>>" +++ eol)] +++ os).
      split; [eapply adds_trans; [exact A1|exact A]|]. split; [rewrite T; unfold put_diff; cbv zeta; rewrite !tab_out; apply newobj_tab|].
      split; [rewrite Er; unfold put_diff; cbv zeta; exact (newobj_err w)|].
      intros [|i] diff Hi.
      + injection Hi as <-. left. f_equal. lia.
      + right. cbn [nth_error] in Hi. specialize (H i diff Hi). rewrite (ad_n _ _ _ A1) in H. change (zlen [obj (w_n w + 1) (bs "<</Type /Encoding /BaseEncoding /WinAnsiEncoding /Differences [" +++ x +++ bs "]>>" +++ eol)]) with 1 in H.
        replace (w_n w + 1 + Z.of_nat (Datatypes.S i)) with (w_n w + 1 + 1 + Z.of_nat i) by lia. exact H.
  Qed.

  (** *** font files *)
  Lemma slice_all {A} (l : list A) a : 0 <= a <= zlen l -> slice l a (zlen l) = Some (skipn (Z.to_nat a) l).
  Proof.
    intros H. unfold slice. fold (zlen l). replace ((0 <=? a) && (a <=? zlen l) && (zlen l <=? zlen l)) with true by lia.
    f_equal. apply firstn_all2. rewrite skipn_length. unfold zlen. lia.
  Qed.
  Lemma put_fontfile_exact e w : cipok w -> ff_utf8 (snd e) = false -> raw_type1 (fst e) (snd e) = false -> ok (put_fontfile d e w) ->
    exists os, adds w (put_fontfile d e w) os /\ w_tab (put_fontfile d e w) = (SFile (fst e), w_n w + 1) :: w_tab w /\
      file_at (Oin os) S (w_n w + 1) (fst e) (snd e).
  Proof.
    destruct e as [file info]. cbn [fst snd]. intros Hc Hu Hraw Hok. unfold put_fontfile in *.
    destruct (w_err w) eqn:Ee. { destruct Hok; congruence. }
    rewrite Hu in *. destruct (ff_content info) as [content|] eqn:Ec. 2:{ destruct Hok; discriminate. }
    cbv zeta in *. destruct (slice file (zlen file - 2) (zlen file)) as [x|] eqn:Es.
    2:{ exfalso. assert (G : forall c v, w_panic v = true -> ok (fontfile_stream d info c content v) -> False).
        { intros c v Hp [_ H]. rewrite fontfile_stream_panic in H by exact Hp. discriminate. }
        destruct (negb false && (0 <? ff_len2 info)).
        - destruct (slice content 6 (ff_len1 info)); [destruct (slice content (6 + ff_len1 info + 6) (ff_len2 info))|];
            destruct Hok as [_ Hok]; rewrite fontfile_stream_panic in Hok by reflexivity; discriminate.
        - eapply G; [|exact Hok]. reflexivity. }
    assert (Hx : x = skipn (length file - 2) file).
    { assert (0 <= zlen file - 2). { unfold slice in Es. destruct ((0 <=? zlen file - 2) && _ && _) eqn:X; [lia|discriminate]. }
      rewrite slice_all in Es by (pose proof (zlen_nonneg file); lia). injection Es as <-. f_equal. unfold zlen in *. lia. }
    assert (Hcz : beqb x (bs ".z") = compressed_name file) by (unfold compressed_name; now rewrite Hx).
    rewrite Hcz in *. unfold raw_type1 in Hraw. rewrite Hraw in *. unfold fontfile_stream. cbv zeta.
    assert (Fin : forall v, writes (newobj w) v (bs "<</Length " +++ dec (zlength content) +++ eol +++
        line_if (compressed_name file) (bs "/Filter /FlateDecode") +++
        bs "/Length1 " +++ dec (ff_len1 info) +++ eol +++
        line_if (0 <? ff_len2 info) (bs "/Length2 " +++ dec (ff_len2 info) +++ bs " /Length3 0") +++ bs ">>" +++ eol) ->
        w_cip v = w_cip (newobj w) -> w_tab v = (SFile file, w_n w + 1) :: w_tab w ->
      exists os, adds w (out (bs "endobj") (putstream d content v)) os /\ w_tab (out (bs "endobj") (putstream d content v)) = (SFile file, w_n w + 1) :: w_tab w /\
        file_at (Oin os) S (w_n w + 1) file info).
    { intros v W C T. destruct (adds_stream_eq w v _ _ content Hc W C eq_refl) as (os & A & Eo). exists os. split; [exact A|].
      split; [rewrite tab_out, putstream_tab; exact T|]. exists content, content. split; [exact Ec|].
      split; [unfold font_program; rewrite Hraw; reflexivity|]. subst os. left. reflexivity. }
    apply Fin.
    - destruct (compressed_name file), (0 <? ff_len2 info); (eapply writes_eq; [repeat wr1|]; unfold line_if, zlength; fold (zlen content); txt).
    - destruct (compressed_name file), (0 <? ff_len2 info); reflexivity.
    - destruct (compressed_name file), (0 <? ff_len2 info); rewrite !tab_out; cbn [w_tab save set_tab]; rewrite newobj_tab, newobj_n; reflexivity.
  Qed.

  (** *** images *)
  Lemma image_dict_exact im w v cs sm : cipok w -> writes (newobj w) v [] -> w_cip v = w_cip (newobj w) -> 
    cs = (if beqb (im_cs im) (bs "Indexed") then bs "/ColorSpace [/Indexed /DeviceRGB " +++ dec (Z.quot (zlength (im_pal im)) 3 - 1) +++ bs " " +++ ref (w_n w + 2) +++ bs "]" +++ eol
          else bs "/ColorSpace /" +++ im_cs im +++ eol +++ line_if (beqb (im_cs im) (bs "DeviceCMYK")) (bs "/Decode [1 0 1 0 1 0 1 0]")) ->
    sm = match im_smask im with None => [] | Some _ => bs "/SMask " +++ ref (w_n w + 2) +++ eol end ->
    adds w (out (bs "endobj") (image_dict d im v)) [obj (w_n w + 1) 
      (image_dict_text (im_w im) (im_h im) cs (im_bpc im) (im_filter im) (im_dp im) (im_trns im) sm (zlength (im_data im)) +++
       bs "stream" +++ eol +++ S (w_n w + 1) (im_data im) +++ eol +++ bs "endstream" +++ eol)].
  Proof.
    intros Hc Hv Cv Ecs Esm. unfold image_dict. cbv zeta.
    assert (Nv : w_n v = w_n w + 1) by (rewrite (wr_n _ _ _ Hv); apply newobj_n).
    assert (B : forall s : bytes, (0 <? zlen s) = some_bytes s).
    { intros [|c s]; [reflexivity|]. rewrite zlen_cons. pose proof (zlen_nonneg s). cbn [some_bytes]. lia. }
    rewrite !B.
    assert (Fin : forall u dict, writes (newobj w) u dict -> w_cip u = w_cip (newobj w) ->
       dict = image_dict_text (im_w im) (im_h im) cs (im_bpc im) (im_filter im) (im_dp im) (im_trns im) sm (zlength (im_data im)) ->
       adds w (out (bs "endobj") (putstream d (im_data im) u)) [obj (w_n w + 1)
        (image_dict_text (im_w im) (im_h im) cs (im_bpc im) (im_filter im) (im_dp im) (im_trns im) sm (zlength (im_data im)) +++
         bs "stream" +++ eol +++ S (w_n w + 1) (im_data im) +++ eol +++ bs "endstream" +++ eol)]).
    { intros u dict Wu Cu Ed. destruct (adds_stream_eq w u _ _ (im_data im) Hc Wu Cu eq_refl) as (os & A & Eo). rewrite Ed in Eo. subst os. exact A. }
    (* the lines one after the other *)
    set (v2 := if beqb (im_cs im) (bs "Indexed") then _ else _).
    assert (W2 : writes (newobj w) v2 (bs "<</Type /XObject" +++ eol +++ bs "/Subtype /Image" +++ eol +++ bs "/Width " +++ dec (im_w im) +++ eol +++ bs "/Height " +++ dec (im_h im) +++ eol +++ cs) /\ w_cip v2 = w_cip (newobj w)).
    { unfold v2. rewrite !n_out, Nv. rewrite Ecs. destruct (beqb (im_cs im) (bs "Indexed")); [|destruct (beqb (im_cs im) (bs "DeviceCMYK"))];
      (split; [|exact Cv]); (eapply writes_eq; [do 5 apply writes_snoc; try apply writes_snoc; exact Hv|]); unfold ref, zlength; fold (zlen (im_pal im));
      replace (w_n w + 1 + 1) with (w_n w + 2) by lia; unfold line_if; txt. }
    destruct W2 as [W2 C2]. clearbody v2.
    set (v3 := if some_bytes (im_filter im) then out _ (out _ v2) else _).
    assert (W3 : writes v2 v3 (bs "/BitsPerComponent " +++ dec (im_bpc im) +++ eol +++ line_if (some_bytes (im_filter im)) (bs "/Filter /" +++ im_filter im)) /\ w_cip v3 = w_cip v2).
    { unfold v3. destruct (some_bytes (im_filter im)); (split; [|reflexivity]); (eapply writes_eq; [repeat wr1|]); unfold line_if; txt. }
    destruct W3 as [W3 C3]. clearbody v3.
    set (v4 := if some_bytes (im_dp im) then out _ v3 else _).
    assert (W4 : writes v3 v4 (line_if (some_bytes (im_dp im)) (bs "/DecodeParms <<" +++ im_dp im +++ bs ">>")) /\ w_cip v4 = w_cip v3).
    { unfold v4. destruct (some_bytes (im_dp im)); (split; [|reflexivity]); (eapply writes_eq; [repeat wr1|]); unfold line_if; txt. }
    destruct W4 as [W4 C4]. clearbody v4.
    set (tb := some_bytes (im_trns im)).
    set (v5 := if tb then out _ v4 else v4).
    assert (W5 : writes v4 v5 (line_if tb (bs "/Mask [" +++ List.concat (map (fun v => dec v +++ bs " " +++ dec v +++ bs " ") (im_trns im)) +++ bs "]")) /\ w_cip v5 = w_cip v4).
    { unfold v5. destruct tb; (split; [|reflexivity]); (eapply writes_eq; [repeat wr1|]); unfold line_if; txt. }
    destruct W5 as [W5 C5]. clearbody v5.
    assert (N5 : w_n v5 = w_n w + 1). { rewrite (wr_n _ _ _ W5), (wr_n _ _ _ W4), (wr_n _ _ _ W3), (wr_n _ _ _ W2). apply newobj_n. }
    set (v6 := match im_smask im with Some _ => out _ v5 | None => v5 end).
    assert (W6 : writes v5 v6 sm /\ w_cip v6 = w_cip v5).
    { unfold v6. rewrite Esm. destruct (im_smask im); (split; [|reflexivity]); (eapply writes_eq; [repeat wr1|]); unfold ref; rewrite ?N5; replace (w_n w + 1 + 1) with (w_n w + 2) by lia; txt. }
    destruct W6 as [W6 C6]. clearbody v6.
    eapply Fin; [|cbn [w_cip out set_buf]; congruence|].
    - apply writes_snoc. eapply writes_trans; [|exact W6]. eapply writes_trans; [|exact W5]. eapply writes_trans; [|exact W4]. eapply writes_trans; [exact W2|exact W3].
    - unfold image_dict_text. change (match im_trns im with [] => false | _ => true end) with tb. unfold zlength. fold (zlen (im_data im)). change eol with nl. repeat rewrite <- app_assoc. reflexivity.
  Qed.

  (** a soft mask has data, and a palette image has no soft mask *)
  Lemma put_image_exact im w : cipok w -> image_sound im ->
    exists os, adds w (put_image d im w) os /\ w_tab (put_image d im w) = (SImg (im_ptr im), w_n w + 1) :: w_tab w /\ image_at d (Oin os) S (w_n w + 1) im.
  Proof.
    intros Hc (Hs1 & Hs2). unfold put_image. cbv zeta.
    set (cs := if beqb (im_cs im) (bs "Indexed") then bs "/ColorSpace [/Indexed /DeviceRGB " +++ dec (Z.quot (zlength (im_pal im)) 3 - 1) +++ bs " " +++ ref (w_n w + 2) +++ bs "]" +++ eol
          else bs "/ColorSpace /" +++ im_cs im +++ eol +++ line_if (beqb (im_cs im) (bs "DeviceCMYK")) (bs "/Decode [1 0 1 0 1 0 1 0]")).
    set (sm := match im_smask im with None => [] | Some _ => bs "/SMask " +++ ref (w_n w + 2) +++ eol end).
    assert (A1 := image_dict_exact im w (save (SImg (im_ptr im)) (newobj w)) cs sm Hc (writes_save _ _) eq_refl eq_refl eq_refl).
    assert (T1 : w_tab (out (bs "endobj") (image_dict d im (save (SImg (im_ptr im)) (newobj w)))) = (SImg (im_ptr im), w_n w + 1) :: w_tab w).
    { rewrite tab_out, image_dict_tab. cbn [w_tab save set_tab]. now rewrite newobj_tab, newobj_n. }
    set (w1 := out (bs "endobj") (image_dict d im (save (SImg (im_ptr im)) (newobj w)))) in *.
    match type of A1 with adds _ _ ?o => set (o1 := o) in * end.
    assert (H1 : forall r, Oin (o1 +++ r) (w_n w + 1) (image_dict_text (im_w im) (im_h im) cs (im_bpc im) (im_filter im) (im_dp im) (im_trns im) sm (zlength (im_data im)) +++
       bs "stream" +++ eol +++ S (w_n w + 1) (im_data im) +++ eol +++ bs "endstream" +++ eol)) by (intros; now left).
    assert (C1 := ad_cip _ _ _ A1 Hc). assert (N1 : w_n w1 = w_n w + 1) by (rewrite (ad_n _ _ _ A1); reflexivity). clearbody w1. clearbody o1.
    destruct (beqb (im_cs im) (bs "Indexed")) eqn:Ei.
    - assert (Hi := Ei). apply beqb_eq in Hi. specialize (Hs2 Hi). subst sm. rewrite Hs2 in *.
      destruct (d_compress d) eqn:Ed.
      + destruct (adds_stream_eq w1 (out (bs "<</Filter /FlateDecode /Length " +++ dec (zlen (e_zlib E (im_pal im))) +++ bs ">>") (newobj w1)) _ _ (e_zlib E (im_pal im)) C1 (writes_out _ _) eq_refl eq_refl) as (o2 & A2 & E2).
        exists (o1 +++ o2). split; [eapply adds_trans; eassumption|]. split; [rewrite tab_out, putstream_tab, tab_out, newobj_tab; exact T1|].
        exists cs, []. split; [|split; [unfold soft_mask; now rewrite Hs2|apply H1]].
        unfold color_space. rewrite Ei. exists (w_n w + 2). split; [reflexivity|]. unfold palette_at. rewrite Ed. apply in_or_app. right.
        rewrite E2. left. rewrite N1. replace (w_n w + 1 + 1) with (w_n w + 2) by lia. f_equal. unfold zlength. fold (zlen (e_zlib E (im_pal im))). txt.
      + destruct (adds_stream_eq w1 (out (bs "<</Length " +++ dec (zlen (im_pal im)) +++ bs ">>") (newobj w1)) _ _ (im_pal im) C1 (writes_out _ _) eq_refl eq_refl) as (o2 & A2 & E2).
        exists (o1 +++ o2). split; [eapply adds_trans; eassumption|]. split; [rewrite tab_out, putstream_tab, tab_out, newobj_tab; exact T1|].
        exists cs, []. split; [|split; [unfold soft_mask; now rewrite Hs2|apply H1]].
        unfold color_space. rewrite Ei. exists (w_n w + 2). split; [reflexivity|]. unfold palette_at. rewrite Ed. apply in_or_app. right.
        rewrite E2. left. rewrite N1. replace (w_n w + 1 + 1) with (w_n w + 2) by lia. f_equal. unfold zlength. fold (zlen (im_pal im)). txt.
    - destruct (im_smask im) as [[|c m]|] eqn:Em; [contradiction| |].
      + pose proof (image_dict_exact (smask_image im (c :: m)) w1 (newobj w1) _ _ C1 (writes_refl _) eq_refl eq_refl eq_refl) as A2.
        match type of A2 with adds _ _ ?o => set (o2 := o) in * end.
        exists (o1 +++ o2). split; [eapply adds_trans; eassumption|]. split; [rewrite tab_out, image_dict_tab, newobj_tab; exact T1|].
        exists cs, sm. split; [unfold color_space; rewrite Ei; reflexivity|]. split; [|apply H1].
        unfold soft_mask. rewrite Em. exists (w_n w + 2). split; [reflexivity|]. apply in_or_app. right. left. rewrite N1. replace (w_n w + 1 + 1) with (w_n w + 2) by lia.
        reflexivity.
      + exists (o1 +++ []). split; [rewrite app_nil_r; exact A1|]. split; [exact T1|]. exists cs, sm. split; [unfold color_space; rewrite Ei; reflexivity|].
        split; [unfold soft_mask; now rewrite Em|apply H1].
  Qed.
End X.
