(** Proofs for C71. *)
From Verif Require Import Base TextModel TextSpec TextProofs Crypto DocModel DocSpec DocSort DocProofs DocWalk PageSpec DocPage DocParts DocRes DocRes2 DocEnd DocXref DocLayout DocFile OutlineSpec DocOutline DocBack DocProps DocProps2
  ResSpec ResProofs ResProofs2 ResProofs3 ResProofs4 ResProofs5 CatSpec.
From Coq Require Import String Permutation.
Open Scope Z_scope.
Notation length := List.length.
Local Notation "a +++ b" := (List.app a b) (at level 60, right associativity, only parsing).

Section Cat.
  Context {E : env} (d : doc (e_num E)).

  Lemma put_page_list_tab l : forall w kids, cipok w -> ok (fst (put_page_list d l w kids)) -> w_tab (fst (put_page_list d l w kids)) = w_tab w /\ ok w.
  Proof.
    induction l as [|pg l IH]; intros w kids Hc; [now split|]. cbn [put_page_list]. intros Hok.
    destruct (put_page_adds d pg w Hc) as (o1 & A1 & P1 & T1). destruct (IH _ _ (ad_cip _ _ _ A1 Hc) Hok) as [-> Hk]. split; [now apply T1|now apply (ad_ok _ _ _ A1)].
  Qed.
  Lemma put_pages_tab w : cipok w -> ok (put_pages d w) -> w_tab (put_pages d w) = w_tab w.
  Proof.
    intros Hc. unfold put_pages. cbv zeta.
    match goal with |- context [put_page_list d ?l ?v ?k] => pose proof (put_page_list_tab l v k) as H; destruct (put_page_list d l v k) as [w1 kids] end.
    intros Hok. rewrite !tab_out. rewrite set_off_tab. cbn [fst] in H. do 7 apply ok_out in Hok. apply set_off_ok in Hok.
    match type of H with context [if ?b then _ else _] => destruct b end; now destruct (H Hc Hok) as [-> _].
  Qed.

  (** ** The information dictionary *)
  Definition opt_entry (e : bytes * bytes) : list (bytes * bytes) := if 0 <? zlen (snd e) then [e] else [].
  Definition entry_line (e : bytes * bytes) : bytes := line (bs "/" +++ fst e +++ bs " (" +++ escape (snd e) +++ bs ")").
  (** the entries [l] with what is stored for them *)
  Definition stored_as (l m : list (bytes * bytes)) : Prop :=
    Forall2 (fun e f => fst f = fst e /\ zlen (snd f) = zlen (snd e) /\ (d_protect d = None -> snd f = snd e)) l m.
  Lemma info_line_text (name s : bytes) (b : bool) w : exists m, stored_as (if b then [(name, s)] else opt_entry (name, s)) m /\
    writes w (info_line d name s b w) (List.concat (map entry_line m)).
  Proof.
    unfold info_line, opt_entry. cbn [snd].
    assert (G : exists m, stored_as [(name, s)] m /\ writes w (let (t, w) := textstr d s w in out (bs "/" +++ name +++ bs " " +++ t) w) (List.concat (map entry_line m))).
    { pose proof (textstr_writes d s w) as W.
      assert (X : exists r, fst (textstr d s w) = bs "(" +++ escape r +++ bs ")" /\ zlen r = zlen s /\ (d_protect d = None -> r = s)).
      { unfold textstr, encrypt. destruct (d_protect d) as [p|].
        - match goal with |- context [xor_stream ?st s] => pose proof (xor_stream_length st s) as L; destruct (xor_stream st s) as [r st'] end.
          cbn [fst] in *. exists r. split; [reflexivity|]. split; [unfold zlen; now rewrite L|discriminate].
        - exists s. now split. }
      destruct X as (r & X1 & X2 & X3). destruct (textstr d s w) as [t v]. cbn [fst snd] in *. subst t.
      exists [(name, r)]. split; [constructor; [now split|constructor]|].
      pose proof (writes_snoc _ _ _ (bs "/" +++ name +++ bs " " +++ bs "(" +++ escape r +++ bs ")") W) as Y.
      eapply writes_eq; [exact Y|]. cbn [map List.concat app]. unfold entry_line, line. cbn [fst snd]. txt. }
    destruct b; [exact G|]. cbn [orb]. destruct (0 <? zlen s); [exact G|]. exists []. split; [constructor|apply writes_refl].
  Qed.
  Lemma stored_app l l' m m' : stored_as l m -> stored_as l' m' -> stored_as (l +++ l') (m +++ m').
  Proof. intros H H'. now apply Forall2_app. Qed.
  Lemma put_info_text w : exists m, stored_as (info_entries d) m /\ writes w (put_info d w) (List.concat (map entry_line m)).
  Proof.
    unfold put_info. cbv zeta.
    destruct (info_line_text (bs "Producer") (d_producer d) false w) as (m1 & S1 & W1).
    set (w1 := info_line d _ _ _ w) in *. clearbody w1.
    destruct (info_line_text (bs "Title") (d_title d) false w1) as (m2 & S2 & W2).
    set (w2 := info_line d _ _ _ w1) in *. clearbody w2.
    destruct (info_line_text (bs "Subject") (d_subject d) false w2) as (m3 & S3 & W3).
    set (w3 := info_line d _ _ _ w2) in *. clearbody w3.
    destruct (info_line_text (bs "Author") (d_author d) false w3) as (m4 & S4 & W4).
    set (w4 := info_line d _ _ _ w3) in *. clearbody w4.
    destruct (info_line_text (bs "Keywords") (d_keywords d) false w4) as (m5 & S5 & W5).
    set (w5 := info_line d _ _ _ w4) in *. clearbody w5.
    destruct (info_line_text (bs "Creator") (d_creator d) false w5) as (m6 & S6 & W6).
    set (w6 := info_line d _ _ _ w5) in *. clearbody w6.
    destruct (info_line_text (bs "CreationDate") (d_created d) true w6) as (m7 & S7 & W7).
    set (w7 := info_line d _ _ _ w6) in *. clearbody w7.
    destruct (info_line_text (bs "ModDate") (d_modified d) true w7) as (m8 & S8 & W8).
    set (w8 := info_line d _ _ _ w7) in *. clearbody w8.
    exists (m1 +++ m2 +++ m3 +++ m4 +++ m5 +++ m6 +++ m7 +++ m8). split.
    - assert (Ei : info_entries d = opt_entry (bs "Producer", d_producer d) +++ opt_entry (bs "Title", d_title d) +++ opt_entry (bs "Subject", d_subject d) +++
        opt_entry (bs "Author", d_author d) +++ opt_entry (bs "Keywords", d_keywords d) +++ opt_entry (bs "Creator", d_creator d) +++
        [(bs "CreationDate", d_created d)] +++ [(bs "ModDate", d_modified d)]).
      { unfold info_entries, opt_entry. cbn [filter snd]. clear.
        assert (X : forall s : bytes, negb (match s with [] => true | _ => false end) = (0 <? zlen s)).
        { intros [|c s]; [reflexivity|]. rewrite zlen_cons. pose proof (zlen_nonneg s). symmetry. apply Z.ltb_lt. lia. }
        rewrite !X. destruct (0 <? zlen (d_producer d)), (0 <? zlen (d_title d)), (0 <? zlen (d_subject d)), (0 <? zlen (d_author d)), (0 <? zlen (d_keywords d)), (0 <? zlen (d_creator d)); reflexivity. }
      rewrite Ei. repeat (apply stored_app; [assumption|]). assumption.
    - rewrite !map_app, !concat_app. repeat (eapply writes_trans; [eassumption|]). assumption.
  Qed.
  Lemma adds_body w w' k a b : adds w w' [obj k a] -> adds w w' [obj k b] -> a = b.
  Proof.
    intros A B. pose proof (ad_buf _ _ _ A) as X. rewrite (ad_buf _ _ _ B) in X. apply app_inv_head in X. unfold render, obj in X. cbn [map List.concat fst snd] in X.
    unfold objtext in X. cbn [fst snd] in X. rewrite !app_nil_r in X. repeat rewrite <- app_assoc in X. do 3 apply app_inv_head in X. now apply app_inv_tail in X.
  Qed.
  Lemma put_info_obj_text w t : adds w (put_info_obj d w) [obj (w_n w + 1) t] -> exists m, stored_as (info_entries d) m /\ t = info_text m.
  Proof.
    intros A. destruct (put_info_text (out (bs "<<") (newobj w))) as (m & Sm & W). exists m. split; [exact Sm|].
    pose proof (writes_snoc _ _ _ (bs ">>") (writes_trans _ _ _ _ _ (writes_out (bs "<<") (newobj w)) W)) as X.
    assert (A' : adds w (put_info_obj d w) [obj (w_n w + 1) (info_text m)]).
    { apply adds_obj. eapply writes_eq; [exact X|]. unfold info_text. change entry_line with (fun e : bytes * bytes => line (bs "/" +++ fst e +++ bs " (" +++ escape (snd e) +++ bs ")")).
      unfold line. generalize (List.concat (map (fun e : bytes * bytes => (bs "/" +++ fst e +++ bs " (" +++ escape (snd e) +++ bs ")") +++ eol) m)). intros q. txt. }
    eapply adds_body; eassumption.
  Qed.

  (** ** The catalog *)
  Definition line_step (w w' : wst) (t : bytes) : Prop := writes w w' t /\ w_tab w' = w_tab w.
  Lemma ls_refl w : line_step w w [].
  Proof. split; [apply writes_refl|reflexivity]. Qed.
  Lemma ls_out s w : line_step w (out s w) (line s).
  Proof. split; [eapply writes_eq; [apply writes_out|]; reflexivity|reflexivity]. Qed.
  Lemma ls_trans a b c s t : line_step a b s -> line_step b c t -> line_step a c (s +++ t).
  Proof. intros [W1 T1] [W2 T2]. split; [eapply writes_trans; eassumption|congruence]. Qed.
  Lemma ls_if (b : bool) w v v' t t' : (b = true -> line_step w v t) -> (b = false -> line_step w v' t') -> line_step w (if b then v else v') (if b then t else t').
  Proof. destruct b; auto. Qed.

  Definition att_nums (tab : list (slot * Z)) : list Z := map (att_of d tab) (d_docatts d).
  Lemma join_names w l : forall i, join nl (embedded_names d i l w) = file_names i (map (att_of d (w_tab w)) l).
  Proof.
    induction l as [|p l IH]; intros i; [reflexivity|]. cbn [embedded_names map].
    destruct l as [|q l].
    - cbn [embedded_names join file_names map]. unfold att_num, att_of, ref. txt.
    - specialize (IH (i + 1)). cbn [embedded_names map] in IH |- *. cbn [join] in IH |- *. rewrite IH.
      cbn [file_names]. unfold att_num, att_of, ref. txt.
  Qed.
  Definition layer_nums (tab : list (slot * Z)) : Z -> list layer -> list (Z * bool) :=
    fix go (j : Z) (l : list layer) := match l with [] => [] | x :: t => (num_of tab (SLayer j), la_visible x) :: go (j + 1) t end.
  Lemma layer_refs_all w l : forall j, layer_refs false j l w = List.concat (map (fun p => ref (fst p) +++ bs " ") (layer_nums (w_tab w) j l)).
  Proof. induction l as [|x l IH]; intros j; [reflexivity|]. cbn [layer_refs layer_nums map List.concat fst andb]. rewrite IH. unfold ref, saved, num_of. txt. Qed.
  Lemma layer_refs_hidden w l : forall j, layer_refs true j l w = List.concat (map (fun p => ref (fst p) +++ bs " ") (filter (fun p => negb (snd p)) (layer_nums (w_tab w) j l))).
  Proof.
    induction l as [|x l IH]; intros j; [reflexivity|]. cbn [layer_refs layer_nums map List.concat fst andb filter snd]. rewrite IH.
    destruct (la_visible x); cbn [negb map List.concat fst app]; [reflexivity|]. unfold ref, saved, num_of. txt.
  Qed.
  Lemma view_step w :
    line_step w (if beqb (d_zoom d) (bs "fullpage") then out (bs "/OpenAction [3 0 R /Fit]") w
             else if beqb (d_zoom d) (bs "fullwidth") then out (bs "/OpenAction [3 0 R /FitH null]") w
             else if beqb (d_zoom d) (bs "real") then out (bs "/OpenAction [3 0 R /XYZ null null 1]") w
             else w) (view_line (d_zoom d)).
  Proof. unfold view_line. repeat (apply ls_if; intros _; [apply ls_out|]). apply ls_refl. Qed.
  Lemma layout_step w :
    line_step w (if mem (d_layout d) [bs "single"; bs "SinglePage"] then out (bs "/PageLayout /SinglePage") w
             else if mem (d_layout d) [bs "continuous"; bs "OneColumn"] then out (bs "/PageLayout /OneColumn") w
             else if mem (d_layout d) [bs "two"; bs "TwoColumnLeft"] then out (bs "/PageLayout /TwoColumnLeft") w
             else if mem (d_layout d) [bs "TwoColumnRight"] then out (bs "/PageLayout /TwoColumnRight") w
             else if mem (d_layout d) [bs "TwoPageLeft"; bs "TwoPageRight"] then out (bs "/PageLayout /" +++ d_layout d) w
             else w) (layout_line (d_layout d)).
  Proof.
    unfold layout_line, layouts, mem. cbn [existsb find fst snd].
    assert (X : forall y, beqb (d_layout d) (bs y) = true -> d_layout d = bs y) by (intros y; apply beqb_eq).
    destruct (beqb (d_layout d) (bs "single")); [apply ls_out|]. destruct (beqb (d_layout d) (bs "SinglePage")); [apply ls_out|]. cbn [orb].
    destruct (beqb (d_layout d) (bs "continuous")); [apply ls_out|]. destruct (beqb (d_layout d) (bs "OneColumn")); [apply ls_out|]. cbn [orb].
    destruct (beqb (d_layout d) (bs "two")); [apply ls_out|]. destruct (beqb (d_layout d) (bs "TwoColumnLeft")); [apply ls_out|]. cbn [orb].
    destruct (beqb (d_layout d) (bs "TwoColumnRight")); [apply ls_out|]. cbn [orb].
    destruct (beqb (d_layout d) (bs "TwoPageLeft")) eqn:E1; [rewrite (X _ E1); apply ls_out|]. destruct (beqb (d_layout d) (bs "TwoPageRight")) eqn:E2; [rewrite (X _ E2); apply ls_out|].
    apply ls_refl.
  Qed.
  Definition cat_outlines (tab : list (slot * Z)) : option Z := match d_outlines d with [] => None | _ => Some (num_of tab SOutl) end.
  Definition cat_js (tab : list (slot * Z)) : option Z := match d_js d with Some _ => Some (num_of tab SJs) | None => None end.
  Lemma zlen_pos {A} (l : list A) : (0 <? zlen l) = match l with [] => false | _ => true end.
  Proof. destruct l as [|x l]; [reflexivity|]. rewrite zlen_cons. pose proof (zlen_nonneg l). apply Z.ltb_lt. lia. Qed.
  Lemma put_catalog_obj_text w t : adds w (put_catalog_obj d w) [obj (w_n w + 1) t] ->
    t = catalog_text (d_zoom d) (d_layout d) (cat_outlines (w_tab w)) (layer_nums (w_tab w) 0 (d_layers d)) (d_pane d) (cat_js (w_tab w)) (att_nums (w_tab w)).
  Proof.
    intros A. set (T := w_tab w).
    assert (L : line_step (newobj w) (out (bs ">>") (put_catalog d (out (bs "<<") (newobj w))))
      (catalog_text (d_zoom d) (d_layout d) (cat_outlines T) (layer_nums T 0 (d_layers d)) (d_pane d) (cat_js T) (att_nums T))).
    { unfold catalog_text. eapply ls_trans; [apply ls_out|].
      assert (T0 : w_tab (out (bs "<<") (newobj w)) = T) by (rewrite tab_out; apply newobj_tab).
      set (u := out (bs "<<") (newobj w)) in *. clearbody u. unfold put_catalog. cbv zeta.
      eapply ls_trans; [apply ls_out|]. eapply ls_trans; [apply ls_out|].
      assert (T1 : w_tab (out (bs "/Pages 1 0 R") (out (bs "/Type /Catalog") u)) = T) by exact T0.
      set (u1 := out (bs "/Pages 1 0 R") (out (bs "/Type /Catalog") u)) in *. clearbody u1. clear T0 u.
      eapply ls_trans; [apply view_step|]. pose proof (view_step u1) as V. destruct V as [_ V]. rewrite T1 in V.
      set (u2 := if beqb (d_zoom d) (bs "fullpage") then _ else _) in *. clearbody u2. clear T1 u1.
      eapply ls_trans; [apply layout_step|]. pose proof (layout_step u2) as V'. destruct V' as [_ V']. rewrite V in V'.
      set (u3 := if mem _ [bs "single"; _] then _ else _) in *. clearbody u3. clear V u2.
      assert (L4 : line_step u3 (if 0 <? zlen (d_outlines d) then out (bs "/PageMode /UseOutlines") (out (bs "/Outlines " +++ dec (saved SOutl u3) +++ bs " 0 R") u3) else u3)
        (match cat_outlines T with Some k => line (bs "/Outlines " +++ ref k) +++ line (bs "/PageMode /UseOutlines") | None => [] end)).
      { rewrite zlen_pos. unfold cat_outlines. destruct (d_outlines d); [apply ls_refl|].
        assert (Es : num_of T SOutl = saved SOutl u3) by (unfold saved, num_of; now rewrite V'). rewrite Es.
        eapply ls_trans; apply ls_out. }
      eapply ls_trans; [exact L4|]. destruct L4 as [_ V4]. rewrite V' in V4.
      set (u4 := if 0 <? zlen (d_outlines d) then _ else _) in *. clearbody u4. clear V' u3.
      assert (L5 : line_step u4 (if 0 <? zlen (d_layers d) then
               let w := out (bs "/OCProperties <</OCGs [" +++ layer_refs false 0 (d_layers d) u4 +++ bs "] /D <</OFF [" +++ layer_refs true 0 (d_layers d) u4 +++ bs "] /Order [" +++ layer_refs false 0 (d_layers d) u4 +++ bs "]>>>>") u4 in
               if d_pane d then out (bs "/PageMode /UseOC") w else w
             else u4) (layer_lines (layer_nums T 0 (d_layers d)) (d_pane d))).
      { rewrite zlen_pos. unfold layer_lines. rewrite layer_refs_all, layer_refs_hidden, V4.
        destruct (d_layers d) as [|x l]; [apply ls_refl|]. cbv zeta. cbn [layer_nums].
        destruct (d_pane d).
        - eapply ls_trans; [apply ls_out|apply ls_out].
        - rewrite app_nil_r. apply ls_out. }
      eapply ls_trans; [exact L5|]. destruct L5 as [_ V5]. rewrite V4 in V5. cbv zeta in V5.
      set (u5 := if 0 <? zlen (d_layers d) then _ else _) in *. clearbody u5. clear V4 u4.
      eapply ls_trans; [apply ls_out|]. assert (V6 : w_tab (out (bs "/Names <<") u5) = T) by exact V5.
      set (u6 := out (bs "/Names <<") u5) in *. clearbody u6. clear V5 u5.
      assert (L7 : line_step u6 (match d_js d with Some _ => out (bs "/JavaScript " +++ dec (saved SJs u6) +++ bs " 0 R") u6 | None => u6 end)
        (match cat_js T with Some k => line (bs "/JavaScript " +++ ref k) | None => [] end)).
      { unfold cat_js. destruct (d_js d); [|apply ls_refl]. assert (Es : num_of T SJs = saved SJs u6) by (unfold saved, num_of; now rewrite V6). rewrite Es. apply ls_out. }
      eapply ls_trans; [exact L7|]. destruct L7 as [_ V7]. rewrite V6 in V7.
      set (u7 := match d_js d with Some _ => _ | None => _ end) in *. clearbody u7. clear V6 u6.
      eapply ls_trans; [|eapply ls_trans; apply ls_out].
      unfold embedded_files, att_nums. rewrite join_names, V7.
      match goal with |- line_step _ (out ?a _) (line ?b) => assert (Eb : b = a) end.
      { change eol with nl. generalize (file_names 1 (map (att_of d T) (d_docatts d))). intros q. txt. }
      rewrite Eb. apply ls_out. }
    destruct L as [W _]. eapply adds_body; [exact A|]. now apply adds_obj.
  Qed.
End Cat.
