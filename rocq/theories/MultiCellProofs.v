From Verif Require Import Base TextModel LineModel LineSpec LineProofs.
From Coq Require Import String.
Open Scope Z_scope.
Notation length := List.length.

Definition count_sep (p : list Z) : Z := Z.of_nat (length (filter mc_sep p)).

Lemma count_sep_app p q : count_sep (p ++ q) = count_sep p + count_sep q.
Proof. unfold count_sep. rewrite filter_app, app_length. lia. Qed.

Lemma count_sep_none p : no_sep mc_sep p -> count_sep p = 0.
Proof.
  unfold count_sep, no_sep. induction 1 as [|c p Hc Hp IH]; [reflexivity|].
  cbn [filter]. rewrite Hc. exact IH.
Qed.

Lemma mc_sep_nl : mc_sep 10 = false. Proof. reflexivity. Qed.

Lemma last_sep_inv sep cur k : last_sep sep cur (Some k) ->
  exists a x w, cur = a ++ x :: w /\ sep x = true /\ no_sep sep w /\ k = length a.
Proof.
  intros H. remember (Some k) as o eqn:Eo. destruct H as [|a x w E Hx Hw]; [discriminate|].
  injection Eo as <-. exists a, x, w. auto.
Qed.

Section MC.
  Variable utf8font rtl : bool.
  Variable cw : list Z.
  Variable missing wmax : Z.
  Variable align border b0 b2 : bytes.
  Variable s : list Z.
  Let n := length s.

  Definition wdm (c : Z) : Z := match mc_width cw missing c with Some w => w | None => 0 end.
  Definition known (c : Z) : bool := match at_ cw c with Some _ => true | None => false end.
  (** every character that is not a newline has an entry in the width table *)
  Definition in_table (t : list Z) : bool := forallb (fun c => (c =? 10) || known c) t.

  Lemma known_width c : known c = true -> mc_width cw missing c = Some (wdm c).
  Proof. unfold known, wdm, mc_width. destruct (at_ cw c); [reflexivity|discriminate]. Qed.
  Lemma unknown_width c : known c = false -> mc_width cw missing c = None.
  Proof. unfold known, mc_width. destruct (at_ cw c); [discriminate|reflexivity]. Qed.

  Definition bord (nl : Z) : bytes :=
    if nl =? 1 then b0 else if 0 <? Z.of_nat (length border) then b2 else b0.
  Definition last_bord : bytes := if containsb (bs "B") border then bs "B" else [].

  Definition cell_ok (c : mc_cell) : Prop :=
    mc_ws c = (if mc_unfit c && beqb align (bs "J") && (1 <=? count_sep (mc_text c))
               then Spacing (Z.quot (wmax - width wdm (mc_text c)) 1000) (count_sep (mc_text c))
               else NoSpacing)
    /\ (mc_unfit c = true -> mc_align c = align).

  Definition borders_ok (nl : Z) (cells : list mc_cell) : Prop :=
    forall k c, nth_error cells k = Some c ->
      mc_border c = bord (nl + Z.of_nat k) ++ (if (S k =? length cells)%nat then last_bord else []).

  Lemma bord_next nl : 1 <= nl -> mc_next_b border b2 (bord nl) (nl + 1) = bord (nl + 1).
  Proof.
    intros H. unfold mc_next_b, bord. replace (nl + 1 =? 1) with false by lia.
    destruct (0 <? Z.of_nat (length border)); cbn [andb].
    - destruct (nl + 1 =? 2) eqn:E; [reflexivity|]. replace (nl =? 1) with false by lia. reflexivity.
    - destruct (nl =? 1); reflexivity.
  Qed.

  Lemma borders_cons nl c cells : cells <> [] ->
    mc_border c = bord nl -> borders_ok (nl + 1) cells -> borders_ok nl (c :: cells).
  Proof.
    intros Hne Hc Hcs [|k] d E; cbn [nth_error] in E.
    - injection E as <-. replace (nl + Z.of_nat 0) with nl by lia. cbn [length].
      destruct (1 =? S (length cells))%nat eqn:E1; [|now rewrite app_nil_r].
      apply Nat.eqb_eq in E1. destruct cells; [easy|discriminate].
    - specialize (Hcs k d E). rewrite Hcs. cbn [length].
      replace (nl + 1 + Z.of_nat k) with (nl + Z.of_nat (S k)) by lia. reflexivity.
  Qed.

  Definition good (nl : Z) (t : list Z) (new : list mc_cell) : Prop :=
    exists ls z, greedy mc_sep wdm wmax t ls z /\ map mc_text new = ls ++ [z]
      /\ borders_ok nl new /\ Forall cell_ok new
      /\ Forall2 (fun c ln => mc_unfit c = true \/
            (mc_align c = mc_nl_align utf8font rtl align)) (removelast new) ls
      /\ (exists c, last new c = c /\ In c new /\ mc_align c = mc_last_align utf8font rtl align /\ mc_unfit c = false).

  Lemma good_ne nl t new : good nl t new -> new <> [].
  Proof. intros (ls & z & _ & E & _) ->. destruct ls; discriminate. Qed.

  Lemma good_cons nl t cell new ls' :
    mc_border cell = bord nl -> cell_ok cell ->
    (mc_unfit cell = true \/ mc_align cell = mc_nl_align utf8font rtl align) ->
    (forall ls z, greedy mc_sep wdm wmax t ls z -> greedy mc_sep wdm wmax ls' (mc_text cell :: ls) z) ->
    good (nl + 1) t new -> good nl ls' (cell :: new).
  Proof.
    intros Hb Hc Ha Hstep Hg. pose proof (good_ne _ _ _ Hg) as Hne.
    destruct Hg as (ls & z & Hg & Em & Hbo & Hco & Hal & (c & El & Hin & Hla)).
    exists (mc_text cell :: ls), z. split; [now apply Hstep|].
    split; [cbn [map]; now rewrite Em|]. split; [now apply borders_cons|].
    split; [now constructor|]. split.
    - destruct new as [|d new]; [easy|]. cbn [removelast]. constructor; [exact Ha|exact Hal].
    - exists c. split; [|split; [now right|exact Hla]].
      destruct new as [|d new]; [easy|]. exact El.
  Qed.

  Lemma width_none : width wdm [] = 0. Proof. reflexivity. Qed.

  Lemma mc_loop_spec fuel : forall pre cur post cells o ls0 nl,
    s = pre ++ cur ++ post -> 1 <= nl ->
    no_nl cur -> in_table cur = true -> fits wdm wmax cur -> last_sep mc_sep cur o ->
    (forall k, o = Some k -> ls0 = width wdm (firstn k cur)) ->
    (length (cur ++ post) * S n + length post < fuel)%nat ->
    let r := mc_loop utf8font rtl cw missing wmax align border b2 s fuel
               (Z.of_nat (length (pre ++ cur))) (Z.of_nat (length pre))
               (sep_code (Z.of_nat (length pre)) o) (width wdm cur) ls0 (count_sep cur) nl (bord nl) cells in
    if in_table post
    then exists new, r = McDone (cells ++ new) /\ good nl (cur ++ post) new
    else exists new, r = McErr (cells ++ new).
  Proof.
    induction fuel as [|fuel IH]; intros pre cur post cells o ls0 nl Es Hnl1 Hnl Hin Hf Hls Hls0 Hfuel; [lia|].
    assert (Hn : n = (length pre + length cur + length post)%nat).
    { unfold n. rewrite Es, !app_length. lia. }
    cbv zeta. cbn [mc_loop]. fold n.
    destruct post as [|c post].
    - (* end *)
      rewrite app_nil_r in *.
      replace (Z.of_nat (length (pre ++ cur)) <? Z.of_nat n) with false
        by (rewrite app_length; simpl in *; lia).
      rewrite (slice_eq s pre cur []) by (try (rewrite app_nil_r; exact Es); rewrite ?app_length; lia).
      cbn [in_table forallb].
      eexists. split; [reflexivity|]. exists [], cur. split; [now constructor|].
      split; [reflexivity|]. split.
      { intros [|k] d E; cbn [nth_error] in E; [|destruct k; discriminate]. injection E as <-. cbn [mc_border length Nat.eqb].
        unfold last_bord. replace (nl + Z.of_nat 0) with nl by lia.
        destruct (containsb (bs "B") border); [reflexivity|now rewrite app_nil_r]. }
      split; [repeat constructor; discriminate|]. split; [constructor|].
      eexists. split; [reflexivity|]. split; [now left|]. now split.
    - replace (Z.of_nat (length (pre ++ cur)) <? Z.of_nat n) with true
        by (rewrite app_length; simpl in *; lia).
      assert (Hat : at_ s (Z.of_nat (length (pre ++ cur))) = Some c).
      { rewrite Es, app_assoc. now apply at_mid. }
      rewrite Hat.
      destruct (c =? 10) eqn:Enl.
      + (* newline *)
        apply Z.eqb_eq in Enl. subst c.
        rewrite (slice_eq s pre cur (10 :: post)) by (try exact Es; rewrite ?app_length; lia).
        cbn [in_table forallb]. replace (10 =? 10) with true by reflexivity. cbn [orb andb]. fold (in_table post).
        rewrite bord_next by exact Hnl1.
        match goal with |- context [cells ++ [?x]] => set (cell := x) end.
        specialize (IH (pre ++ cur ++ [10]) [] post (cells ++ [cell]) None ls0 (nl + 1)).
        lapply IH; [clear IH; intros IH|rewrite Es, <- !app_assoc; reflexivity].
        lapply IH; [clear IH; intros IH|lia].
        lapply IH; [clear IH; intros IH|intros []].
        lapply IH; [clear IH; intros IH|reflexivity].
        lapply IH; [clear IH; intros IH|apply fits_nil].
        lapply IH; [clear IH; intros IH|apply ls_none; constructor].
        lapply IH; [clear IH; intros IH|discriminate].
        lapply IH; [clear IH; intros IH|rewrite app_length in Hfuel; cbn [app length] in *; nia].
        cbv zeta in IH. cbn [app sep_code] in IH. rewrite app_nil_r in IH.
        replace (Z.of_nat (length (pre ++ cur ++ [10]))) with (Z.of_nat (length (pre ++ cur)) + 1) in IH
          by (rewrite !app_length; simpl; lia).
        change (width wdm []) with 0 in IH. change (count_sep []) with 0 in IH.
        destruct (in_table post).
        * destruct IH as (new & Hr & Hg). exists (cell :: new). split.
          { rewrite Hr. f_equal. now rewrite <- app_assoc. }
          eapply good_cons; [reflexivity| | |intros ls z Hgr; apply g_newline; [exact Hnl|exact Hf|exact Hgr]|exact Hg].
          { split; [reflexivity|discriminate]. }
          { now right. }
        * destruct IH as (new & Hr). exists (cell :: new). rewrite Hr. f_equal. now rewrite <- app_assoc.
      + apply Z.eqb_neq in Enl.
        pose proof (last_sep_snoc mc_sep cur o c Hls) as Hls'.
        remember (if mc_sep c then Some (length cur) else o) as o' eqn:Eo'.
        set (ls1 := if mc_sep c then width wdm cur else ls0).
        assert (Etr : (if mc_sep c then (Z.of_nat (length (pre ++ cur)), width wdm cur, count_sep cur + 1)
                       else (sep_code (Z.of_nat (length pre)) o, ls0, count_sep cur))
                      = (sep_code (Z.of_nat (length pre)) o', ls1, count_sep (cur ++ [c]))).
        { rewrite count_sep_app. unfold count_sep at 4. cbn [filter]. unfold ls1. rewrite Eo'.
          rewrite app_length.
          destruct (mc_sep c); cbn [length sep_code];
            [replace (Z.of_nat (length pre) + Z.of_nat (length cur)) with (Z.of_nat (length pre + length cur)) by lia; reflexivity
            |replace (count_sep cur + Z.of_nat 0) with (count_sep cur) by lia; reflexivity]. }
        rewrite Etr. clear Etr.
        cbn [in_table forallb]. fold (in_table post). replace (c =? 10) with false by lia. cbn [orb].
        destruct (known c) eqn:Ek.
        2:{ rewrite unknown_width by exact Ek. cbn [andb]. exists []. now rewrite app_nil_r. }
        rewrite known_width by exact Ek. cbn [andb].
        assert (Hw : width wdm cur + wdm c = width wdm (cur ++ [c])).
        { rewrite width_app. unfold width. simpl. lia. }
        rewrite Hw.
        assert (Hls1 : forall k, o' = Some k -> ls1 = width wdm (firstn k (cur ++ [c]))).
        { intros k Ek'. rewrite Eo' in Ek'. unfold ls1. destruct (mc_sep c).
          - injection Ek' as <-. rewrite firstn_app, Nat.sub_diag, firstn_all. cbn [firstn]. now rewrite app_nil_r.
          - rewrite (Hls0 k Ek'). f_equal. rewrite firstn_app. rewrite Ek' in Hls.
            destruct (last_sep_inv _ _ _ Hls) as (a & x & w & Ec & Hx & Hwn & ->). rewrite Ec, app_length. cbn [length].
            replace (length a - (length a + S (length w)))%nat with 0%nat by lia. cbn [firstn]. now rewrite app_nil_r. }
        assert (Hin' : in_table (cur ++ [c]) = true).
        { unfold in_table in *. rewrite forallb_app, Hin. cbn [forallb]. rewrite Ek. now rewrite orb_true_r. }
        destruct (wmax <? width wdm (cur ++ [c])) eqn:Eov.
        * apply Z.ltb_lt in Eov. rewrite bord_next by exact Hnl1.
          inversion Hls' as [Hno Eo|a x w Ecur Hx Hwns Eo]; cbn [sep_code].
          -- replace (-1 =? -1) with true by reflexivity.
             destruct cur as [|y cur].
             ++ rewrite app_nil_r, Z.eqb_refl.
                rewrite (slice_eq s pre [c] post) by (try exact Es; simpl; lia).
                match goal with |- context [cells ++ [?x]] => set (cell := x) end.
                specialize (IH (pre ++ [c]) [] post (cells ++ [cell]) None ls1 (nl + 1)).
                lapply IH; [clear IH; intros IH|rewrite Es, <- !app_assoc; reflexivity].
                lapply IH; [clear IH; intros IH|lia].
                lapply IH; [clear IH; intros IH|intros []].
                lapply IH; [clear IH; intros IH|reflexivity].
                lapply IH; [clear IH; intros IH|apply fits_nil].
                lapply IH; [clear IH; intros IH|apply ls_none; constructor].
                lapply IH; [clear IH; intros IH|discriminate].
                lapply IH; [clear IH; intros IH|cbn [app length] in *; nia].
                cbv zeta in IH. cbn [app sep_code] in IH. rewrite app_nil_r in IH.
                replace (Z.of_nat (length (pre ++ [c]))) with (Z.of_nat (length pre) + 1) in IH
                  by (rewrite !app_length; simpl; lia).
                change (width wdm []) with 0 in IH. change (count_sep []) with 0 in IH.
                assert (Hc1 : mc_sep c = false) by now inversion Hno.
                destruct (in_table post).
                ** destruct IH as (new & Hr & Hg). exists (cell :: new). split.
                   { rewrite Hr. f_equal. now rewrite <- app_assoc. }
                   eapply good_cons; [reflexivity| | |intros ls z Hgr; apply g_char; [exact Hc1|exact Enl|unfold width in Eov; simpl in Eov; lia|exact Hgr]|exact Hg].
                   { split; [|reflexivity]. cbn [mc_ws mc_unfit mc_text cell].
                     rewrite count_sep_none by exact Hno. now rewrite andb_false_r. }
                   { now left. }
                ** destruct IH as (new & Hr). exists (cell :: new). rewrite Hr. f_equal. now rewrite <- app_assoc.
             ++ replace (Z.of_nat (length (pre ++ y :: cur)) =? Z.of_nat (length pre)) with false
                  by (rewrite app_length; simpl; lia).
                rewrite (slice_eq s pre (y :: cur) (c :: post)) by (try exact Es; rewrite ?app_length; lia).
                match goal with |- context [cells ++ [?x]] => set (cell := x) end.
                specialize (IH (pre ++ y :: cur) [] (c :: post) (cells ++ [cell]) None ls1 (nl + 1)).
                lapply IH; [clear IH; intros IH|rewrite Es, <- !app_assoc; reflexivity].
                lapply IH; [clear IH; intros IH|lia].
                lapply IH; [clear IH; intros IH|intros []].
                lapply IH; [clear IH; intros IH|reflexivity].
                lapply IH; [clear IH; intros IH|apply fits_nil].
                lapply IH; [clear IH; intros IH|apply ls_none; constructor].
                lapply IH; [clear IH; intros IH|discriminate].
                lapply IH; [clear IH; intros IH|rewrite app_length in Hfuel; cbn [app length] in *; nia].
                cbv zeta in IH. cbn [app sep_code] in IH. rewrite app_nil_r in IH.
                change (width wdm []) with 0 in IH. change (count_sep []) with 0 in IH.
                cbn [in_table forallb] in IH. fold (in_table post) in IH. rewrite Ek in IH. rewrite orb_true_r in IH. cbn [andb] in IH.
                assert (Hno' : no_sep mc_sep (y :: cur)).
                { unfold no_sep in *. now apply Forall_app in Hno. }
                destruct (in_table post).
                ** destruct IH as (new & Hr & Hg). exists (cell :: new). split.
                   { rewrite Hr. f_equal. now rewrite <- app_assoc. }
                   eapply good_cons; [reflexivity| | |intros ls z Hgr; apply (g_word mc_sep wdm wmax (y :: cur) c post ls z); [discriminate|exact Hno|now apply no_nl_snoc|exact Hf|exact Eov|exact Hgr]|exact Hg].
                   { split; [|reflexivity]. cbn [mc_ws mc_unfit mc_text cell].
                     rewrite count_sep_none by exact Hno'. now rewrite andb_false_r. }
                   { now left. }
                ** destruct IH as (new & Hr). exists (cell :: new). rewrite Hr. f_equal. now rewrite <- app_assoc.
          -- replace (Z.of_nat (length pre) + Z.of_nat (length a) =? -1) with false by lia.
             assert (Es2 : s = pre ++ a ++ x :: w ++ post).
             { rewrite Es. f_equal. change (c :: post) with ([c] ++ post).
               rewrite app_assoc, Ecur, <- app_assoc. reflexivity. }
             rewrite (slice_eq s pre a (x :: w ++ post)) by (try exact Es2; lia).
             match goal with |- context [cells ++ [?x]] => set (cell := x) end.
             assert (Hlen : (length cur + 1 = length a + S (length w))%nat).
             { apply (f_equal (@List.length Z)) in Ecur. rewrite !app_length in Ecur. simpl in Ecur. lia. }
             specialize (IH (pre ++ a ++ [x]) [] (w ++ post) (cells ++ [cell]) None ls1 (nl + 1)).
             lapply IH; [clear IH; intros IH|rewrite Es2, <- !app_assoc; reflexivity].
             lapply IH; [clear IH; intros IH|lia].
             lapply IH; [clear IH; intros IH|intros []].
             lapply IH; [clear IH; intros IH|reflexivity].
             lapply IH; [clear IH; intros IH|apply fits_nil].
             lapply IH; [clear IH; intros IH|apply ls_none; constructor].
             lapply IH; [clear IH; intros IH|discriminate].
             lapply IH; [clear IH; intros IH|rewrite app_length in Hfuel; cbn [app]; rewrite !app_length; cbn [length] in *; nia].
             cbv zeta in IH. cbn [app sep_code] in IH. rewrite app_nil_r in IH.
             replace (Z.of_nat (length (pre ++ a ++ [x]))) with (Z.of_nat (length pre) + Z.of_nat (length a) + 1) in IH
               by (rewrite !app_length; simpl; lia).
             change (width wdm []) with 0 in IH. change (count_sep []) with 0 in IH.
             assert (Hwt : in_table (w ++ post) = in_table post).
             { unfold in_table in *. rewrite forallb_app. rewrite Ecur, forallb_app in Hin'.
               apply andb_prop in Hin' as [_ Hin']. cbn [forallb] in Hin'. apply andb_prop in Hin' as [_ Hin'].
               now rewrite Hin'. }
             rewrite Hwt in IH.
             assert (Hcs : count_sep (cur ++ [c]) = count_sep a + 1).
             { rewrite Ecur, count_sep_app. change (x :: w) with ([x] ++ w). rewrite count_sep_app, (count_sep_none w) by exact Hwns.
               unfold count_sep at 2. cbn [filter]. rewrite Hx. cbn [length]. lia. }
             assert (Hlsa : ls1 = width wdm a).
             { rewrite (Hls1 (length a)) by congruence. rewrite Ecur, firstn_app, Nat.sub_diag, firstn_all. cbn [firstn]. now rewrite app_nil_r. }
             destruct (in_table post).
             ++ destruct IH as (new & Hr & Hg). exists (cell :: new). split.
                { rewrite Hr. f_equal. now rewrite <- app_assoc. }
                assert (Et : cur ++ c :: post = a ++ x :: w ++ post).
                { change (c :: post) with ([c] ++ post). rewrite (app_assoc cur), Ecur, <- app_assoc. reflexivity. }
                rewrite Et.
                eapply good_cons; [reflexivity| | |intros ls z Hgr; apply g_sep; [exact Hx|exact Hwns| | | |exact Hgr]|exact Hg].
                { split; [|reflexivity]. cbn [mc_ws mc_unfit mc_text cell]. rewrite Hlsa, Hcs. cbn [andb].
                  replace (1 <? count_sep a + 1) with (1 <=? count_sep a) by lia.
                  replace (count_sep a + 1 - 1) with (count_sep a) by lia. reflexivity. }
                { now left. }
                { change (mc_text cell) with a. rewrite <- Ecur. apply no_nl_snoc; auto. }
                { change (mc_text cell) with a. rewrite <- Ecur, removelast_snoc. exact Hf. }
                { change (mc_text cell) with a. rewrite <- Ecur. exact Eov. }
             ++ destruct IH as (new & Hr). exists (cell :: new). rewrite Hr. f_equal. now rewrite <- app_assoc.
        * apply Z.ltb_ge in Eov.
          specialize (IH pre (cur ++ [c]) post cells o' ls1 nl).
          lapply IH; [clear IH; intros IH|rewrite Es, <- !app_assoc; reflexivity].
          lapply IH; [clear IH; intros IH|exact Hnl1].
          lapply IH; [clear IH; intros IH|now apply no_nl_snoc].
          lapply IH; [clear IH; intros IH|exact Hin'].
          lapply IH; [clear IH; intros IH|now apply fits_snoc].
          lapply IH; [clear IH; intros IH|exact Hls'].
          lapply IH; [clear IH; intros IH|exact Hls1].
          lapply IH; [clear IH; intros IH|rewrite <- app_assoc; rewrite !app_length in *; cbn [app length] in *; lia].
          cbv zeta in IH.
          replace (Z.of_nat (length (pre ++ cur ++ [c]))) with (Z.of_nat (length (pre ++ cur)) + 1) in IH
            by (rewrite !app_length; simpl; lia).
          rewrite <- app_assoc in IH. exact IH.
  Qed.

  Lemma mc_run_spec :
    let r := mc_loop utf8font rtl cw missing wmax align border b2 s (split_fuel s) 0 0 (-1) 0 0 0 1 b0 [] in
    if in_table s then exists new, r = McDone new /\ good 1 s new
    else exists new, r = McErr new.
  Proof.
    pose proof (mc_loop_spec (split_fuel s) [] [] s [] None 0 1) as H.
    lapply H; [clear H; intros H|reflexivity].
    lapply H; [clear H; intros H|lia].
    lapply H; [clear H; intros H|intros []].
    lapply H; [clear H; intros H|reflexivity].
    lapply H; [clear H; intros H|apply fits_nil].
    lapply H; [clear H; intros H|apply ls_none; constructor].
    lapply H; [clear H; intros H|discriminate].
    lapply H; [clear H; intros H|cbn [app]; unfold split_fuel, n; nia].
    exact H.
  Qed.
End MC.
