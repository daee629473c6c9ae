(** Proofs for C62, continued: all resources, the text of the dictionary. *)
From Verif Require Import Base TextModel Crypto DocModel DocSpec DocSort DocProofs DocWalk DocParts DocRes DocRes2 DocEnd DocXref DocLayout ResSpec ResProofs ResProofs2 ResProofs3 ResProofs4.
From Coq Require Import String Permutation.
Open Scope Z_scope.
Notation length := List.length.
Local Notation "a +++ b" := (List.app a b) (at level 60, right associativity, only parsing).
Local Notation objs := (list (Z * bytes)).

Section All.
  Context {E : env} (d : doc (e_num E)).
  Hypothesis W : forall site A (l : list A), Permutation (e_shuffle E site A l) l.
  Hypothesis RS : resources_sound d.
  Hypothesis HP : forall e1 e2 a b, In e1 (d_tpls d) -> In e2 (d_tpls d) -> within a (snd e1) -> within b (snd e2) -> tpl_ptr a = tpl_ptr b -> a = b.
  Hypothesis HI : forall e, In e (e_shuffle E 10 _ (d_impobjs d)) -> imported_closed e.
  Local Notation S := (cipher d).

  Record all_looks (O : Z -> bytes -> Prop) (tab : list (slot * Z)) : Prop := {
    al_font : forall e, In e (d_fonts d) -> exists k, find_slot (SFont (fst e)) tab = Some k /\ font_at d O S k (snd e);
    al_img : forall e, In e (d_images d) -> exists k, find_slot (SImg (im_ptr (snd e))) tab = Some k /\ image_at d O S k (snd e);
    al_tpl : forall e, In e (d_tpls d) -> exists k, find_slot (STpl (tpl_id (snd e))) tab = Some k /\ template_at d O S k (snd e);
    al_blend : forall p, numbered (d_blends d) 1 p -> exists k, find_slot (SBlend (fst p)) tab = Some k /\ blend_at O k (snd p);
    al_grad : forall p, numbered (d_grads d) 1 p -> exists k, find_slot (SGrad (fst p)) tab = Some k /\ gradient_at O k (snd p);
    al_layer : forall p, numbered (d_layers d) 0 p -> exists k, find_slot (SLayer (fst p)) tab = Some k /\ layer_at O S k (snd p);
    al_spot : forall e, In e (d_spots d) -> exists k, find_slot (SSpot (fst e)) tab = Some k /\ spot_at (E := E) O k (fst e) (snd e) }.

  (** look up one table entry through the later ones *)
  Lemma fsk s ts n t k : of_kind n ts -> kind s <> n -> find_slot s t = Some k -> find_slot s (ts +++ t) = Some k.
  Proof. intros H1 H2 H3. rewrite (find_slot_kind n) by assumption. exact H3. Qed.

  Lemma all_stages w o : cipok w -> 2 <= w_n w -> lenok w -> ok (before_dict d w) -> adds w (before_dict d w) o ->
    all_looks (Oin o) (w_tab (before_dict d w)) /\ (forall s, 8 < kind s -> find_slot s (w_tab (before_dict d w)) = find_slot s (w_tab w)).
  Proof.
    intros Hc H2 Hl Hok A. unfold before_dict in *. set (wr := put_res_objects d w) in *.
    assert (Hok1 : ok (put_tpls d (put_images d wr))) by (eapply put_imported_ok; exact Hok).
    assert (Hok2 : ok (put_images d wr)) by (eapply put_tpls_ok; exact Hok1).
    assert (Hok3 : ok wr) by (eapply put_image_list_ok; exact Hok2).
    unfold wr, put_res_objects in *. cbv zeta in *.
    set (wl := iteri (put_layer d) 0 (d_layers d) w) in *.
    set (wb := iteri put_blend 1 (d_blends d) wl) in *.
    set (wg := iteri (put_grad (E := E)) 1 (d_grads d) wb) in *.
    set (ws := fold_left (fun w e => put_spot E e w) (e_shuffle E 17 _ (d_spots d)) wg) in *.
    assert (Hs : ok ws) by (eapply put_fonts_ok; exact Hok3).
    assert (Hg : ok wg). { eapply ok_fold; [|exact Hs]. intros x v Hv. destruct (put_spot_exact (E := E) x v) as (o' & A' & _). apply (ad_ok _ _ _ A'). exact Hv. }
    assert (Hb : ok wb). { eapply ok_iteri; [|exact Hg]. intros j x v. apply pushes_ok. apply put_grad_pushes. }
    assert (Hll : ok wl). { eapply ok_iteri; [|exact Hb]. intros j x v. apply pushes_ok. apply put_blend_pushes. }
    (* layers *)
    destruct (iteri_stage (put_layer d) SLayer 0 (fun O k l => layer_at O S k l) (d_layers d) 0 w) as (o1 & t1 & A1 & T1 & K1 & L1); auto.
    { intros O O' k a HO. apply layer_at_mono; [exact HO|reflexivity]. }
    { intros a b X. now injection X. }
    { intros j x v. apply pushes_ok. apply put_layer_pushes. }
    { intros j x v _ Hv Hv2. destruct (put_layer_exact d j x v Hv Hv2) as (os & X1 & X2 & X3). exists os, (w_n v + 1). auto. }
    fold wl in A1, T1, L1. assert (C1 := ad_cip _ _ _ A1 Hc).
    (* transparency states *)
    destruct (iteri_stage put_blend SBlend 1 blend_at (d_blends d) 1 wl) as (o2 & t2 & A2 & T2 & K2 & L2); auto.
    { intros O O' k a HO. now apply blend_at_mono. }
    { intros a b X. now injection X. }
    { intros j x v. apply pushes_ok. apply put_blend_pushes. }
    { intros j x v _ Hv Hv2. destruct (put_blend_exact j x v) as (os & X1 & X2 & X3). exists os, (w_n v + 1). auto. }
    fold wb in A2, T2, L2. assert (C2 := ad_cip _ _ _ A2 C1).
    (* gradients *)
    destruct (iteri_stage (put_grad (E := E)) SGrad 2 (fun O k g => gradient_at (E := E) O k g) (d_grads d) 1 wb) as (o3 & t3 & A3 & T3 & K3 & L3); auto.
    { intros O O' k a HO. now apply gradient_at_mono. }
    { intros a b X. now injection X. }
    { intros j x v. apply pushes_ok. apply put_grad_pushes. }
    { intros j x v Hx Hv Hv2. destruct (put_grad_exact (E := E) j x v (so_grads d RS x Hx)) as (os & X1 & X2 & X3). exists os, (w_n v + 2). auto. }
    fold wg in A3, T3, L3. assert (C3 := ad_cip _ _ _ A3 C2).
    (* spot colors *)
    destruct (fold_stage (fun w e => put_spot E e w) (fun e => SSpot (fst e)) 3 (fun _ => True) (fun O k e => spot_at (E := E) O k (fst e) (snd e)) (e_shuffle E 17 _ (d_spots d)) wg)
      as (o4 & t4 & A4 & T4 & K4 & _ & L4); auto.
    { intros O O' k a HO. now apply spot_at_mono. }
    { intros a b Ha Hb' X. injection X as X. apply (Permutation_in _ (W _ _ _)) in Ha. apply (Permutation_in _ (W _ _ _)) in Hb'. eapply nodup_key; eauto. apply (so_spotkeys d RS). }
    { intros x v. apply pushes_ok. apply put_spot_pushes. }
    { intros x v _ Hv _ Hv2. destruct (put_spot_exact (E := E) x v) as (os & X1 & X2 & X3). exists os, (w_n v + 1). auto. }
    fold ws in A4, T4, L4. assert (C4 := ad_cip _ _ _ A4 C3).
    (* fonts *)
    destruct (put_fonts_stage d W RS ws C4 Hok3) as (o5 & t5 & t5' & A5 & T5 & K5 & K5' & L5). set (wf := put_fonts d ws) in *. assert (C5 := ad_cip _ _ _ A5 C4).
    assert (N5 : 2 <= w_n wf).
    { rewrite (ad_n _ _ _ A5), (ad_n _ _ _ A4), (ad_n _ _ _ A3), (ad_n _ _ _ A2), (ad_n _ _ _ A1). pose proof (zlen_nonneg o1). pose proof (zlen_nonneg o2). pose proof (zlen_nonneg o3). pose proof (zlen_nonneg o4). pose proof (zlen_nonneg o5). lia. }
    (* images *)
    destruct (put_images_stage d W RS wf C5 N5) as (o6 & t6 & A6 & T6 & K6 & L6). set (wi := put_images d wf) in *. assert (C6 := ad_cip _ _ _ A6 C5).
    (* templates *)
    destruct (sort_tpls_spec d W HP) as (S1 & _ & S3).
    set (O6 := fun k b => Oin o5 k b \/ Oin o6 k b).
    destruct (put_tpls_stage d W RS wi O6 (sort_tpls d) C6) as (o7 & t7 & A7 & T7 & K7 & L7).
    { intros t Ht. now apply S1. }
    { exact S3. }
    { intros e He. destruct (L5 e He) as (k & F & X). exists k. split; [rewrite T6; eapply fsk; eauto; discriminate|].
      eapply font_at_mono; [|reflexivity|exact X]. intros; now left. }
    { intros e He. destruct (L6 e He) as (k & F & X). exists k. split; [exact F|]. eapply image_at_mono; [|reflexivity|exact X]. intros; now right. }
    fold (put_tpls d wi) in A7, T7. set (wt := put_tpls d wi) in *. assert (C7 := ad_cip _ _ _ A7 C6).
    (* imported pages *)
    destruct (put_imported_adds d wt) as (o8 & A8 & _); auto.
    destruct (put_imported_tab d wt) as (t8 & T8 & K8).
    assert (Eo : o = o1 +++ o2 +++ o3 +++ o4 +++ o5 +++ o6 +++ o7 +++ o8).
    { eapply adds_unique; [exact H2|exact Hl|exact A|]. do 7 (eapply adds_trans; [eassumption|]). exact A8. }
    assert (I : incl o1 o /\ incl o2 o /\ incl o3 o /\ incl o4 o /\ incl o5 o /\ incl o6 o /\ incl o7 o).
    { rewrite Eo. clear. repeat split; intros x Hx; rewrite !in_app_iff; tauto. }
    destruct I as (I1 & I2 & I3 & I4 & I5 & I6 & I7).
    rewrite T8, T7, T6, T5, T4, T3, T2, T1 in *. split.
    2:{ intros s Hkind. rewrite <- ?app_assoc.
        repeat match goal with K : of_kind ?n ?ts |- find_slot s (?ts +++ _) = _ => rewrite (find_slot_kind n s ts) by (try exact K; lia) end. reflexivity. }
    constructor.
    - intros e He. destruct (L5 e He) as (k & F & X). exists k. split; [do 3 (eapply fsk; [eassumption|discriminate|]); rewrite ?T5, ?T4, ?T3, ?T2, ?T1 in F; exact F|].
      eapply font_at_mono; [|reflexivity|exact X]. intros x y. apply I5.
    - intros e He. destruct (L6 e He) as (k & F & X). exists k. split; [do 2 (eapply fsk; [eassumption|discriminate|]); rewrite ?T6, ?T5, ?T4, ?T3, ?T2, ?T1 in F; exact F|].
      eapply image_at_mono; [|reflexivity|exact X]. intros x y. apply I6.
    - intros e He. destruct (L7 (snd e)) as (k & F & X). { apply S1. exists e. split; [exact He|constructor]. }
      exists k. split; [eapply fsk; [eassumption|discriminate|]; now apply find_slot_hit|].
      eapply template_at_mono; [|reflexivity|exact X]. intros x y [[Y|Y]|Y]; [now apply I5|now apply I6|now apply I7].
    - intros p Hp. destruct (L2 p Hp) as (k & F & X). exists k. split; [do 7 (eapply fsk; [eassumption|discriminate|]); rewrite ?T2, ?T1 in F; exact F|].
      apply I2. exact X.
    - intros p Hp. destruct (L3 p Hp) as (k & F & X). exists k. split; [do 6 (eapply fsk; [eassumption|discriminate|]); rewrite ?T3, ?T2, ?T1 in F; exact F|].
      eapply gradient_at_mono; [|exact X]. intros x y. apply I3.
    - intros p Hp. destruct (L1 p Hp) as (k & F & X). exists k. split; [do 8 (eapply fsk; [eassumption|discriminate|]); rewrite ?T1 in F; exact F|].
      eapply layer_at_mono; [|reflexivity|exact X]. intros x y. apply I1.
    - intros e He. destruct (L4 e) as (k & F & X). { now apply (Permutation_in _ (Permutation_sym (W _ _ _))). }
      exists k. split; [do 5 (eapply fsk; [eassumption|discriminate|]); rewrite ?T4, ?T3, ?T2, ?T1 in F; exact F|].
      apply I4. exact X.
  Qed.

  (** ** The text *)
  Lemma writes_unique w w' a b : writes w w' a -> writes w w' b -> a = b.
  Proof. intros A B. pose proof (wr_buf _ _ _ A) as X. rewrite (wr_buf _ _ _ B) in X. apply app_inv_head in X. now symmetry. Qed.
  Lemma dict_part {A} (f : wst -> A -> wst) (name : A -> bytes) (num : A -> Z) title l v :
    (forall x v', In x l -> w_tab v' = w_tab v -> f v' x = out (bs "/" +++ name x +++ bs " " +++ dec (num x) +++ bs " 0 R") v') ->
    writes v (out (bs ">>") (fold_left f l (out (title +++ bs " <<") v))) (section title (map (fun x => (name x, num x)) l)) /\
    w_tab (out (bs ">>") (fold_left f l (out (title +++ bs " <<") v))) = w_tab v.
  Proof.
    intros H. destruct (fold_lines f (fun x => bs "/" +++ name x +++ bs " " +++ dec (num x) +++ bs " 0 R") l (out (title +++ bs " <<") v)) as (X & T & _).
    { intros x v' Hx Hv. apply H; [exact Hx|]. rewrite Hv. apply tab_out. }
    rewrite names_map in X. split; [|rewrite tab_out, T; apply tab_out].
    eapply writes_eq; [apply writes_snoc; eapply writes_trans; [apply writes_out|exact X]|].
    unfold section. generalize (names (map (fun x : A => (name x, num x)) l)). intros m. txt.
  Qed.

  Definition num_of (tab : list (slot * Z)) (s : slot) : Z := match find_slot s tab with Some k => k | None => 0 end.
  Lemma saved_num s v u : w_tab v = w_tab u -> saved s v = num_of (w_tab u) s.
  Proof. intros H. unfold saved, num_of. now rewrite H. Qed.
  Lemma optional_part {A} (l : list A) v v' t : writes v v' t -> w_tab v' = w_tab v ->
    writes v (if 0 <? zlen l then v' else v) (unless_empty l t) /\ w_tab (if 0 <? zlen l then v' else v) = w_tab v.
  Proof.
    intros H T. destruct l as [|x l]; [split; [apply writes_refl|reflexivity]|].
    replace (0 <? zlen (x :: l)) with true. { now split. } rewrite zlen_cons. pose proof (zlen_nonneg l). lia.
  Qed.

  Lemma resource_dict_text u t O : all_looks O (w_tab u) -> writes u (put_resource_dict d u) t ->
    resource_dictionary d O S (fun h => num_of (w_tab u) (SImp h)) (bs "<<" +++ nl +++ t +++ bs ">>" +++ nl).
  Proof.
    intros L Wt. set (N := num_of (w_tab u)).
    set (fl := keyed E 15 (d_sort d) (fun a b => bltb (fo_id (snd a)) (fo_id (snd b))) (d_fonts d)).
    set (il := keyed E 12 (d_sort d) (fun a b => bltb (im_id (snd a)) (im_id (snd b))) (d_images d)).
    set (tl := keyed E 13 (d_sort d) by_key (d_tpls d)).
    set (pl := e_shuffle E 14 _ (d_imptpls d)).
    set (sl := e_shuffle E 16 _ (d_spots d)).
    set (bl := combine (nums 1 (length (d_blends d))) (d_blends d)).
    set (gl := combine (nums 1 (length (d_grads d))) (d_grads d)).
    set (ll := combine (nums 0 (length (d_layers d))) (d_layers d)).
    set (imported := List.concat (map (fun e : bytes * bytes => (fst e +++ bs " " +++ dec (N (SImp (snd e))) +++ bs " 0 R") +++ nl) pl)).
    set (fonts := map (fun e : bytes * font => (bs "F" +++ fo_id (snd e), N (SFont (fst e)))) fl).
    set (images := map (fun e : bytes * image => (bs "I" +++ im_id (snd e), N (SImg (im_ptr (snd e))))) il).
    set (templates := map (fun e : bytes * tpl (e_num E) => (bs "TPL" +++ tpl_id (snd e), N (STpl (tpl_id (snd e))))) tl).
    set (states := map (fun p : Z * blend => (bs "GS" +++ dec (fst p), N (SBlend (fst p)))) bl).
    set (shadings := map (fun p : Z * gradient (e_num E) => (bs "Sh" +++ dec (fst p), N (SGrad (fst p)))) gl).
    set (layers := map (fun p : Z * layer => (bs "OC" +++ dec (fst p), N (SLayer (fst p)))) ll).
    set (spaces := map (fun e : bytes * spot => (bs "CS" +++ dec (sp_id (snd e)), N (SSpot (fst e)))) sl).
    assert (Text : t = bs "/ProcSet [/PDF /Text /ImageB /ImageC /ImageI]" +++ eol +++
           section (bs "/Font") fonts +++
           (bs "/XObject <<" +++ eol +++ names images +++ names templates +++ imported +++ bs ">>" +++ eol) +++
           unless_empty (d_blends d) (section (bs "/ExtGState") states) +++
           unless_empty (d_grads d) (section (bs "/Shading") shadings) +++
           unless_empty (d_layers d) (section (bs "/Properties") layers) +++
           section (bs "/ColorSpace") spaces).
    { eapply writes_unique; [exact Wt|]. unfold put_resource_dict. cbv zeta. rewrite !iteri_fold.
      set (w1 := out (bs "/ProcSet [/PDF /Text /ImageB /ImageC /ImageI]") u).
      assert (T1 : w_tab w1 = w_tab u) by apply tab_out.
      (* fonts *)
      destruct (dict_part (fun w e => out (bs "/F" +++ fo_id (snd e) +++ bs " " +++ dec (saved (SFont (fst e)) w) +++ bs " 0 R") w)
         (fun e => bs "F" +++ fo_id (snd e)) (fun e => N (SFont (fst e))) (bs "/Font") fl w1) as (X2 & T2).
      { intros x v _ Hv. rewrite (saved_num _ v u) by congruence. reflexivity. }
      change (bs "/Font" +++ bs " <<") with (bs "/Font <<") in X2, T2. rewrite T1 in T2.
      fold fl. set (w2 := out (bs ">>") (fold_left _ fl (out (bs "/Font <<") w1))) in *.
      (* images, templates *)
      set (w3 := out (bs "/XObject <<") w2). assert (T3 : w_tab w3 = w_tab u) by (unfold w3; rewrite tab_out; exact T2).
      unfold put_xobjects. cbv zeta. fold il. fold tl. fold pl.
      destruct (fold_lines (fun w e => out (bs "/I" +++ im_id (snd e) +++ bs " " +++ dec (saved (SImg (im_ptr (snd e))) w) +++ bs " 0 R") w)
        (fun e => bs "/" +++ (bs "I" +++ im_id (snd e)) +++ bs " " +++ dec (N (SImg (im_ptr (snd e)))) +++ bs " 0 R") il w3) as (X4 & T4 & _).
      { intros x v _ Hv. rewrite (saved_num _ v u) by congruence. reflexivity. }
      rewrite names_map in X4. rewrite T3 in T4. set (w4 := fold_left _ il w3) in *.
      destruct (fold_lines (fun w e => match find_slot (STpl (tpl_id (snd e))) (w_tab w) with
                                   | Some n => out (bs "/TPL" +++ tpl_id (snd e) +++ bs " " +++ dec n +++ bs " 0 R") w
                                   | None => w end)
        (fun e : bytes * tpl (e_num E) => bs "/" +++ (bs "TPL" +++ tpl_id (snd e)) +++ bs " " +++ dec (N (STpl (tpl_id (snd e)))) +++ bs " 0 R") tl w4) as (X5 & T5 & _).
      { intros x v Hx Hv. apply (keyed_in E W) in Hx. rewrite Hv, T4. destruct (al_tpl _ _ L x Hx) as (k & F & _). unfold N, num_of. rewrite F. reflexivity. }
      rewrite names_map in X5. rewrite T4 in T5. set (w5 := fold_left _ tl w4) in *.
      destruct (fold_lines (fun w (e : bytes * bytes) => out (fst e +++ bs " " +++ dec (saved (SImp (snd e)) w) +++ bs " 0 R") w)
        (fun e : bytes * bytes => fst e +++ bs " " +++ dec (N (SImp (snd e))) +++ bs " 0 R") pl w5) as (X6 & T6 & _).
      { intros x v _ Hv. rewrite (saved_num _ v u) by congruence. reflexivity. }
      rewrite T5 in T6. fold imported in X6. set (w6 := fold_left _ pl w5) in *.
      set (w7 := out (bs ">>") w6). assert (T7 : w_tab w7 = w_tab u) by (unfold w7; rewrite tab_out; exact T6).
      (* transparency states, gradients, layers *)
      destruct (dict_part (fun w p => out (bs "/GS" +++ dec (fst p) +++ bs " " +++ dec (saved (SBlend (fst p)) w) +++ bs " 0 R") w)
         (fun p : Z * blend => bs "GS" +++ dec (fst p)) (fun p => N (SBlend (fst p))) (bs "/ExtGState") bl w7) as (X8 & T8).
      { intros x v _ Hv. rewrite (saved_num _ v u) by congruence. reflexivity. }
      destruct (optional_part (d_blends d) _ _ _ X8 T8) as (Y8 & U8).
      change (bs "/ExtGState" +++ bs " <<") with (bs "/ExtGState <<") in Y8, U8. rewrite T7 in U8. fold bl.
      set (w8 := if 0 <? zlen (d_blends d) then _ else _) in *.
      destruct (dict_part (fun w p => out (bs "/Sh" +++ dec (fst p) +++ bs " " +++ dec (saved (SGrad (fst p)) w) +++ bs " 0 R") w)
         (fun p : Z * gradient (e_num E) => bs "Sh" +++ dec (fst p)) (fun p => N (SGrad (fst p))) (bs "/Shading") gl w8) as (X9 & T9).
      { intros x v _ Hv. rewrite (saved_num _ v u) by congruence. reflexivity. }
      destruct (optional_part (d_grads d) _ _ _ X9 T9) as (Y9 & U9).
      change (bs "/Shading" +++ bs " <<") with (bs "/Shading <<") in Y9, U9. rewrite U8 in U9. fold gl.
      set (w9 := if 0 <? zlen (d_grads d) then _ else _) in *.
      destruct (dict_part (fun w p => out (bs "/OC" +++ dec (fst p) +++ bs " " +++ dec (saved (SLayer (fst p)) w) +++ bs " 0 R") w)
         (fun p : Z * layer => bs "OC" +++ dec (fst p)) (fun p => N (SLayer (fst p))) (bs "/Properties") ll w9) as (X10 & T10).
      { intros x v _ Hv. rewrite (saved_num _ v u) by congruence. reflexivity. }
      destruct (optional_part (d_layers d) _ _ _ X10 T10) as (Y10 & U10).
      change (bs "/Properties" +++ bs " <<") with (bs "/Properties <<") in Y10, U10. rewrite U9 in U10. fold ll.
      set (w10 := if 0 <? zlen (d_layers d) then _ else _) in *.
      (* spot colors *)
      destruct (dict_part (fun w e => out (bs "/CS" +++ dec (sp_id (snd e)) +++ bs " " +++ dec (saved (SSpot (fst e)) w) +++ bs " 0 R") w)
         (fun e : bytes * spot => bs "CS" +++ dec (sp_id (snd e))) (fun e => N (SSpot (fst e))) (bs "/ColorSpace") sl w10) as (X11 & T11).
      { intros x v _ Hv. rewrite (saved_num _ v u) by congruence. reflexivity. }
      change (bs "/ColorSpace" +++ bs " <<") with (bs "/ColorSpace <<") in X11, T11. fold sl.
      eapply writes_eq.
      - eapply writes_trans; [|exact X11]. eapply writes_trans; [|exact Y10]. eapply writes_trans; [|exact Y9]. eapply writes_trans; [|exact Y8].
        unfold w7. apply writes_snoc. eapply writes_trans; [|exact X6]. eapply writes_trans; [|exact X5]. eapply writes_trans; [|exact X4].
        unfold w3. apply writes_snoc. eapply writes_trans; [|exact X2]. unfold w1. apply writes_out.
      - change eol with nl. repeat rewrite <- app_assoc. reflexivity. }
    assert (Nk : forall s k, find_slot s (w_tab u) = Some k -> N s = k) by (intros s k F; unfold N, num_of; now rewrite F).
    exists fonts, images, templates, imported, states, shadings, layers, spaces.
    split; [rewrite Text; change eol with nl; repeat rewrite <- app_assoc; reflexivity|].
    split. { exists pl. split; [apply W|]. unfold imported, imported_names, ref. f_equal. apply map_ext. intros e. change eol with nl. rewrite <- ?app_assoc. reflexivity. }
    split; [|split; [|split; [|split; [|split; [|split]]]]].
    - apply (naming_list _ _ _ (fun e => N (SFont (fst e)))).
      + intros e. symmetry. apply (keyed_in E W).
      + intros e He. apply (keyed_in E W) in He. destruct (al_font _ _ L e He) as (k & F & X). rewrite (Nk _ _ F). exact X.
    - apply (naming_list _ _ _ (fun e => N (SImg (im_ptr (snd e))))).
      + intros e. symmetry. apply (keyed_in E W).
      + intros e He. apply (keyed_in E W) in He. destruct (al_img _ _ L e He) as (k & F & X). rewrite (Nk _ _ F). exact X.
    - apply (naming_list _ _ _ (fun e => N (STpl (tpl_id (snd e))))).
      + intros e. symmetry. apply (keyed_in E W).
      + intros e He. apply (keyed_in E W) in He. destruct (al_tpl _ _ L e He) as (k & F & X). rewrite (Nk _ _ F). exact X.
    - apply (naming_list _ _ _ (fun p => N (SBlend (fst p)))).
      + intros [j x]. symmetry. apply in_combine_nums.
      + intros [j x] He. apply in_combine_nums in He. destruct (al_blend _ _ L (j, x) He) as (k & F & X). rewrite (Nk _ _ F). exact X.
    - apply (naming_list _ _ _ (fun p => N (SGrad (fst p)))).
      + intros [j x]. symmetry. apply in_combine_nums.
      + intros [j x] He. apply in_combine_nums in He. destruct (al_grad _ _ L (j, x) He) as (k & F & X). rewrite (Nk _ _ F). exact X.
    - apply (naming_list _ _ _ (fun p => N (SLayer (fst p)))).
      + intros [j x]. symmetry. apply in_combine_nums.
      + intros [j x] He. apply in_combine_nums in He. destruct (al_layer _ _ L (j, x) He) as (k & F & X). rewrite (Nk _ _ F). exact X.
    - apply (naming_list _ _ _ (fun e => N (SSpot (fst e)))).
      + intros e. split; [apply (Permutation_in _ (Permutation_sym (W _ _ _)))|apply (Permutation_in _ (W _ _ _))].
      + intros e He. apply (Permutation_in _ (W _ _ _)) in He. destruct (al_spot _ _ L e He) as (k & F & X). rewrite (Nk _ _ F). exact X.
  Qed.
End All.
