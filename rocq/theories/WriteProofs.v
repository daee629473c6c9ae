From Verif Require Import Base TextModel LineModel LineSpec LineProofs WriteModel.
Open Scope Z_scope.

Definition sp (c : Z) : bool := c =? 32.

Definition ev_text (e : wevent) : list Z :=
  match e with WLine t => t | WLast t _ => t | _ => [] end.

(** Closed lines are [WLine], an open non-empty last line is [WLast]. *)
Definition render (wd : Z -> Z) (ls : list (list Z)) (z : list Z) : list wevent :=
  map WLine ls ++ match z with [] => [] | _ => [WLast z (width wd z)] end.

(** Specification of flowing text: the first line has room [wm]; if the very
    first word does not fit there and the cursor is not at the left margin, the
    text starts on the next line. *)
Inductive flow (wd : Z -> Z) (right : bool) (wm wfull : Z) : list Z -> list wevent -> Prop :=
| f_last t : no_nl t -> fits wd wm t -> flow wd right wm wfull t (render wd [] t)
| f_newline line rest ls z :
    no_nl line -> fits wd wm line -> greedy sp wd wfull rest ls z ->
    flow wd right wm wfull (line ++ 10 :: rest) (WLine line :: render wd ls z)
| f_sep line c word rest ls z :
    c = 32 -> no_sep sp word -> no_nl (line ++ c :: word) ->
    fits wd wm (removelast (line ++ c :: word)) -> wm < width wd (line ++ c :: word) ->
    greedy sp wd wfull (word ++ rest) ls z ->
    flow wd right wm wfull (line ++ c :: word ++ rest) (WLine line :: render wd ls z)
| f_move line d rest ls z :
    right = true -> no_sep sp (line ++ [d]) -> no_nl (line ++ [d]) ->
    fits wd wm line -> wm < width wd (line ++ [d]) ->
    greedy sp wd wfull (line ++ d :: rest) ls z ->
    flow wd right wm wfull (line ++ d :: rest) (WMove :: render wd ls z)
| f_word line d rest ls z :
    right = false -> line <> [] -> no_sep sp (line ++ [d]) -> no_nl (line ++ [d]) ->
    fits wd wm line -> wm < width wd (line ++ [d]) ->
    greedy sp wd wfull (d :: rest) ls z ->
    flow wd right wm wfull (line ++ d :: rest) (WLine line :: render wd ls z)
| f_char d rest ls z :
    right = false -> sp d = false -> d <> 10 -> wm < wd d ->
    greedy sp wd wfull rest ls z ->
    flow wd right wm wfull (d :: rest) (WLine [d] :: render wd ls z).

Section Loop.
  Variable cw : list Z.
  Variable wfull : Z.
  Variable s : list Z.
  Notation wd := (wd cw).
  (** every character except newline is in the width table *)
  Hypothesis cov : Forall (fun c => c = 10 \/ at_ cw c <> None) s.
  Let n := length s.

  Lemma cov_at c : In c s -> c <> 10 -> at_ cw c = Some (wd c).
  Proof.
    intros Hin Hc. rewrite Forall_forall in cov. destruct (cov c Hin) as [H|H]; [contradiction|].
    unfold LineProofs.wd. now destruct (at_ cw c).
  Qed.

  (** Preliminaries shared by the two inductions: one iteration at character c. *)
  Lemma snoc_facts pre cur c post o :
    s = pre ++ cur ++ c :: post -> last_sep sp cur o ->
    at_ s (Z.of_nat (length (pre ++ cur))) = Some c
    /\ In c s
    /\ last_sep sp (cur ++ [c]) (if sp c then Some (length cur) else o)
    /\ width wd cur + wd c = width wd (cur ++ [c])
    /\ (if c =? 32 then Z.of_nat (length (pre ++ cur)) else sep_code (Z.of_nat (length pre)) o)
       = sep_code (Z.of_nat (length pre)) (if sp c then Some (length cur) else o).
  Proof.
    intros Es Hls. split; [|split; [|split; [|split]]].
    - rewrite Es, app_assoc. now apply at_mid.
    - rewrite Es. apply in_or_app. right. apply in_or_app. right. now left.
    - now apply last_sep_snoc.
    - rewrite width_app. unfold width. simpl. lia.
    - unfold sp. destruct (c =? 32); [|reflexivity]. cbn [sep_code]. rewrite app_length. lia.
  Qed.

  (** After the first line (nl >= 2): plain greedy filling with the full width. *)
  Lemma write_loop_greedy fuel : forall pre cur post evs o nl,
    s = pre ++ cur ++ post -> 2 <= nl ->
    no_nl cur -> fits wd wfull cur -> last_sep sp cur o ->
    (length (cur ++ post) * S n + length post < fuel)%nat ->
    exists ls z, greedy sp wd wfull (cur ++ post) ls z /\
      write_loop cw wfull s fuel false wfull (Z.of_nat (length (pre ++ cur))) (Z.of_nat (length pre))
                 (sep_code (Z.of_nat (length pre)) o) (width wd cur) nl evs
      = Ret (evs ++ render wd ls z).
  Proof.
    induction fuel as [|fuel IH]; intros pre cur post evs o nl Es Hnl2 Hnl Hf Hls Hfuel; [lia|].
    assert (Hn : n = (length pre + length cur + length post)%nat).
    { unfold n. rewrite Es, !app_length. lia. }
    cbn [write_loop]. fold n.
    destruct post as [|c post].
    - rewrite app_nil_r in *.
      replace (Z.of_nat (length (pre ++ cur)) <? Z.of_nat n) with false
        by (rewrite app_length; simpl in *; lia).
      exists [], cur. split; [now constructor|].
      destruct cur as [|x cur].
      + rewrite app_nil_r, Z.eqb_refl. unfold render. cbn. now rewrite app_nil_r.
      + replace (_ =? _) with false by (rewrite app_length; simpl; lia).
        rewrite (slice_eq s pre (x :: cur) []) by (try (rewrite app_nil_r; exact Es); cbn [length] in *; lia).
        reflexivity.
    - replace (Z.of_nat (length (pre ++ cur)) <? Z.of_nat n) with true
        by (rewrite app_length; simpl in *; lia).
      destruct (snoc_facts pre cur c post o Es Hls) as (Hat & Hin & Hls' & Hw & Hsep).
      rewrite Hat. cbv zeta. rewrite Hsep. clear Hsep Hat.
      replace (nl =? 1) with false by lia.
      destruct (c =? 10) eqn:Enl.
      + apply Z.eqb_eq in Enl. subst c.
        rewrite (slice_eq s pre cur (10 :: post)) by (try exact Es; rewrite ?app_length; lia).
        destruct (IH (pre ++ cur ++ [10]) [] post (evs ++ [WLine cur]) None (nl + 1)) as (ls & z & Hg & Hrun).
        { rewrite Es, <- !app_assoc. reflexivity. }
        { lia. }
        { intros []. }
        { apply fits_nil. }
        { apply ls_none. constructor. }
        { rewrite app_length in Hfuel. cbn [app length] in *. nia. }
        exists (cur :: ls), z. split; [now constructor|].
        cbn [app sep_code] in Hrun. rewrite app_nil_r in Hrun.
        replace (Z.of_nat (length (pre ++ cur)) + 1)
          with (Z.of_nat (length (pre ++ cur ++ [10]))) by (rewrite !app_length; simpl; lia).
        change (width wd []) with 0 in Hrun. rewrite Hrun. rewrite <- app_assoc. reflexivity.
      + apply Z.eqb_neq in Enl. rewrite (cov_at c Hin Enl), Hw.
        remember (if sp c then Some (length cur) else o) as o' eqn:Eo'.
        destruct (wfull <? width wd (cur ++ [c])) eqn:Eov.
        * apply Z.ltb_lt in Eov. inversion Hls' as [Hno Eo|a x w Ecur Hx Hwns Eo]; cbn [sep_code].
          -- replace (-1 =? -1) with true by reflexivity.
             destruct cur as [|y cur].
             ++ rewrite app_nil_r, Z.eqb_refl.
                rewrite (slice_eq s pre [c] post) by (try exact Es; simpl; lia).
                destruct (IH (pre ++ [c]) [] post (evs ++ [WLine [c]]) None (nl + 1)) as (ls & z & Hg & Hrun).
                { rewrite Es, <- !app_assoc. reflexivity. }
                { lia. }
                { intros []. }
                { apply fits_nil. }
                { apply ls_none. constructor. }
                { cbn [app length] in *. nia. }
                exists ([c] :: ls), z. split.
                { cbn [app] in *. apply g_char; auto; [now inversion Hno|].
                  unfold width in Eov. simpl in Eov. lia. }
                cbn [app sep_code] in Hrun. rewrite app_nil_r in Hrun.
                replace (Z.of_nat (length pre) + 1) with (Z.of_nat (length (pre ++ [c]))) by (rewrite app_length; simpl; lia).
                change (width wd []) with 0 in Hrun. rewrite Hrun. rewrite <- app_assoc. reflexivity.
             ++ replace (Z.of_nat (length (pre ++ y :: cur)) =? Z.of_nat (length pre)) with false
                  by (rewrite app_length; simpl; lia).
                rewrite (slice_eq s pre (y :: cur) (c :: post)) by (try exact Es; rewrite ?app_length; lia).
                destruct (IH (pre ++ y :: cur) [] (c :: post) (evs ++ [WLine (y :: cur)]) None (nl + 1)) as (ls & z & Hg & Hrun).
                { rewrite Es, <- !app_assoc. reflexivity. }
                { lia. }
                { intros []. }
                { apply fits_nil. }
                { apply ls_none. constructor. }
                { rewrite app_length in Hfuel. cbn [app length] in *. nia. }
                exists ((y :: cur) :: ls), z. split.
                { apply g_word; auto; [discriminate|]. apply no_nl_snoc; auto. }
                cbn [app sep_code] in Hrun. rewrite app_nil_r in Hrun.
                change (width wd []) with 0 in Hrun. rewrite Hrun. rewrite <- app_assoc. reflexivity.
          -- replace (Z.of_nat (length pre) + Z.of_nat (length a) =? -1) with false by lia.
             assert (Es2 : s = pre ++ a ++ x :: w ++ post).
             { rewrite Es. f_equal. change (c :: post) with ([c] ++ post).
               rewrite app_assoc, Ecur, <- app_assoc. reflexivity. }
             rewrite (slice_eq s pre a (x :: w ++ post)) by (try exact Es2; lia).
             assert (Hlen : (length cur + 1 = length a + S (length w))%nat).
             { apply (f_equal (@length Z)) in Ecur. rewrite !app_length in Ecur. simpl in Ecur. lia. }
             destruct (IH (pre ++ a ++ [x]) [] (w ++ post) (evs ++ [WLine a]) None (nl + 1)) as (ls & z & Hg & Hrun).
             { rewrite Es2, <- !app_assoc. reflexivity. }
             { lia. }
             { intros []. }
             { apply fits_nil. }
             { apply ls_none. constructor. }
             { rewrite app_length in Hfuel. cbn [app]. rewrite !app_length. cbn [length] in *. nia. }
             exists (a :: ls), z. split.
             { replace (cur ++ c :: post) with (a ++ x :: w ++ post).
               2:{ change (c :: post) with ([c] ++ post). rewrite (app_assoc cur), Ecur, <- app_assoc. reflexivity. }
               apply g_sep; auto.
               - rewrite <- Ecur. apply no_nl_snoc; auto.
               - rewrite <- Ecur, removelast_snoc. exact Hf.
               - rewrite <- Ecur. exact Eov. }
             cbn [app sep_code] in Hrun. rewrite app_nil_r in Hrun.
             replace (Z.of_nat (length pre) + Z.of_nat (length a) + 1)
               with (Z.of_nat (length (pre ++ a ++ [x]))) by (rewrite !app_length; simpl; lia).
             change (width wd []) with 0 in Hrun. rewrite Hrun. rewrite <- app_assoc. reflexivity.
        * apply Z.ltb_ge in Eov.
          destruct (IH pre (cur ++ [c]) post evs o' nl) as (ls & z & Hg & Hrun).
          { rewrite Es, <- app_assoc. reflexivity. }
          { lia. }
          { now apply no_nl_snoc. }
          { now apply fits_snoc. }
          { exact Hls'. }
          { rewrite <- app_assoc. rewrite !app_length in *. cbn [app length] in *. lia. }
          exists ls, z. split; [now rewrite <- app_assoc in Hg|].
          replace (Z.of_nat (length (pre ++ cur)) + 1) with (Z.of_nat (length (pre ++ cur ++ [c])))
            by (rewrite !app_length; simpl; lia).
          exact Hrun.
  Qed.

  (** First line. *)
  Lemma write_loop_first right wm fuel : forall cur post o,
    s = cur ++ post ->
    (right = true -> Forall (fun c => c = 10 \/ wd c <= wfull - Z.max 0 wm) s) -> (right = true -> wm <= wfull) ->
    no_nl cur -> fits wd wm cur -> last_sep sp cur o ->
    (length (cur ++ post) * S n + length post < fuel)%nat ->
    exists evs, flow wd right wm wfull (cur ++ post) evs /\
      write_loop cw wfull s fuel right wm (Z.of_nat (length cur)) 0 (sep_code 0 o) (width wd cur) 1 [] = Ret evs.
  Proof.
    induction fuel as [|fuel IH]; intros cur post o Es Hroom Hwm Hnl Hf Hls Hfuel; [lia|].
    assert (Hn : n = (length cur + length post)%nat).
    { unfold n. rewrite Es, !app_length. lia. }
    cbn [write_loop]. fold n.
    destruct post as [|c post].
    - rewrite app_nil_r in *.
      replace (Z.of_nat (length cur) <? Z.of_nat n) with false by (simpl in *; lia).
      exists (render wd [] cur). split; [now constructor|].
      destruct cur as [|x cur]; [reflexivity|].
      replace (_ =? _) with false by (simpl; lia).
      rewrite (slice_eq s [] (x :: cur) []) by (try (rewrite app_nil_r; exact Es); cbn [length] in *; lia).
      reflexivity.
    - replace (Z.of_nat (length cur) <? Z.of_nat n) with true by (simpl in *; lia).
      destruct (snoc_facts [] cur c post o Es Hls) as (Hat & Hin & Hls' & Hw & Hsep).
      cbn [app length] in Hat, Hsep. change (Z.of_nat 0) with 0 in Hsep.
      rewrite Hat. cbv zeta. rewrite Hsep. clear Hsep Hat.
      replace (1 =? 1) with true by reflexivity.
      destruct (c =? 10) eqn:Enl.
      + apply Z.eqb_eq in Enl. subst c.
        rewrite (slice_eq s [] cur (10 :: post)) by (try exact Es; cbn [length]; lia).
        destruct (write_loop_greedy fuel (cur ++ [10]) [] post [WLine cur] None 2) as (ls & z & Hg & Hrun).
        { rewrite Es, <- !app_assoc. reflexivity. }
        { lia. }
        { intros []. }
        { apply fits_nil. }
        { apply ls_none. constructor. }
        { rewrite app_length in Hfuel. cbn [app length] in *. nia. }
        exists (WLine cur :: render wd ls z). split; [now constructor|].
        cbn [app sep_code] in Hrun. rewrite app_nil_r in Hrun.
        replace (Z.of_nat (length cur) + 1) with (Z.of_nat (length (cur ++ [10]))) by (rewrite !app_length; simpl; lia).
        exact Hrun.
      + apply Z.eqb_neq in Enl. rewrite (cov_at c Hin Enl), Hw.
        remember (if sp c then Some (length cur) else o) as o' eqn:Eo'.
        destruct (wm <? width wd (cur ++ [c])) eqn:Eov.
        * apply Z.ltb_lt in Eov. inversion Hls' as [Hno Eo|a x w Ecur Hx Hwns Eo]; cbn [sep_code].
          -- replace (-1 =? -1) with true by reflexivity.
             destruct right.
             ++ (* move to the next line *)
                destruct (write_loop_greedy fuel [] (cur ++ [c]) post [WMove] None 2) as (ls & z & Hg & Hrun).
                { rewrite Es, <- app_assoc. reflexivity. }
                { lia. }
                { now apply no_nl_snoc. }
                { assert (Hcw : width wd (cur ++ [c]) <= wfull).
                  { specialize (Hroom eq_refl). rewrite Forall_forall in Hroom. specialize (Hroom c Hin).
                    specialize (Hwm eq_refl).
                    destruct cur as [|y cur].
                    - unfold width. simpl. destruct Hroom as [?|Hr]; [congruence|].
                      (* the very first character *)
                      change (width wd ([] ++ [c])) with (wd c + 0) in Eov. lia.
                    - assert (width wd (y :: cur) <= wm).
                      { apply (Hf (y :: cur) []); [now rewrite app_nil_r|discriminate]. }
                      destruct Hroom as [?|Hr]; [congruence|]. lia. }
                  apply fits_snoc; [|exact Hcw].
                  specialize (Hwm eq_refl). intros p q E Hp. specialize (Hf p q E Hp). lia. }
                { now apply ls_none. }
                { cbn [app] in *. rewrite <- app_assoc. rewrite !app_length in *. cbn [app length] in *. lia. }
                exists (WMove :: render wd ls z). split.
                { apply f_move; auto; [now apply no_nl_snoc|]. now rewrite <- app_assoc in Hg. }
                cbn [app sep_code length] in Hrun. change (Z.of_nat 0) with 0 in Hrun.
                replace (Z.of_nat (length cur) + 1) with (Z.of_nat (length (cur ++ [c]))) by (rewrite app_length; simpl; lia).
                exact Hrun.
             ++ destruct cur as [|y cur].
                ** change (Z.of_nat (length []) =? 0) with true. cbv iota.
                   rewrite (slice_eq s [] [c] post) by (try exact Es; simpl; lia).
                   destruct (write_loop_greedy fuel [c] [] post [WLine [c]] None 2) as (ls & z & Hg & Hrun).
                   { exact Es. }
                   { lia. }
                   { intros []. }
                   { apply fits_nil. }
                   { apply ls_none. constructor. }
                   { cbn [app length] in *. nia. }
                   exists (WLine [c] :: render wd ls z). split.
                   { cbn [app] in *. apply f_char; auto; [now inversion Hno|].
                     unfold width in Eov. simpl in Eov. lia. }
                   exact Hrun.
                ** replace (Z.of_nat (length (y :: cur)) =? 0) with false by (simpl; lia).
                   rewrite (slice_eq s [] (y :: cur) (c :: post)) by (try exact Es; cbn [length]; lia).
                   destruct (write_loop_greedy fuel (y :: cur) [] (c :: post) [WLine (y :: cur)] None 2) as (ls & z & Hg & Hrun).
                   { exact Es. }
                   { lia. }
                   { intros []. }
                   { apply fits_nil. }
                   { apply ls_none. constructor. }
                   { rewrite app_length in Hfuel. cbn [app length] in *. nia. }
                   exists (WLine (y :: cur) :: render wd ls z). split.
                   { apply f_word; auto; [discriminate|]. apply no_nl_snoc; auto. }
                   cbn [sep_code] in Hrun. rewrite app_nil_r in Hrun. exact Hrun.
          -- replace (0 + Z.of_nat (length a) =? -1) with false by lia.
             assert (Es2 : s = a ++ x :: w ++ post).
             { rewrite Es. change (c :: post) with ([c] ++ post).
               rewrite app_assoc, Ecur, <- app_assoc. reflexivity. }
             rewrite (slice_eq s [] a (x :: w ++ post)) by (try exact Es2; cbn [length]; lia).
             assert (Hlen : (length cur + 1 = length a + S (length w))%nat).
             { apply (f_equal (@length Z)) in Ecur. rewrite !app_length in Ecur. simpl in Ecur. lia. }
             destruct (write_loop_greedy fuel (a ++ [x]) [] (w ++ post) [WLine a] None 2) as (ls & z & Hg & Hrun).
             { rewrite Es2, <- !app_assoc. reflexivity. }
             { lia. }
             { intros []. }
             { apply fits_nil. }
             { apply ls_none. constructor. }
             { rewrite app_length in Hfuel. cbn [app]. rewrite !app_length. cbn [length] in *. nia. }
             exists (WLine a :: render wd ls z). split.
             { replace (cur ++ c :: post) with (a ++ x :: w ++ post).
               2:{ change (c :: post) with ([c] ++ post). rewrite (app_assoc cur), Ecur, <- app_assoc. reflexivity. }
               apply f_sep; auto.
               - now apply Z.eqb_eq.
               - rewrite <- Ecur. apply no_nl_snoc; auto.
               - rewrite <- Ecur, removelast_snoc. exact Hf.
               - rewrite <- Ecur. exact Eov. }
             cbn [app sep_code] in Hrun. rewrite app_nil_r in Hrun.
             replace (0 + Z.of_nat (length a) + 1)
               with (Z.of_nat (length (a ++ [x]))) by (rewrite !app_length; simpl; lia).
             exact Hrun.
        * apply Z.ltb_ge in Eov.
          destruct (IH (cur ++ [c]) post o') as (evs & Hg & Hrun).
          { rewrite Es, <- app_assoc. reflexivity. }
          { exact Hroom. }
          { exact Hwm. }
          { now apply no_nl_snoc. }
          { now apply fits_snoc. }
          { exact Hls'. }
          { rewrite <- app_assoc. rewrite !app_length in *. cbn [app length] in *. lia. }
          exists evs. split; [now rewrite <- app_assoc in Hg|].
          replace (Z.of_nat (length cur) + 1) with (Z.of_nat (length (cur ++ [c])))
            by (rewrite !app_length; simpl; lia).
          exact Hrun.
  Qed.

  Lemma write_run_flow right wm :
    (right = true -> Forall (fun c => c = 10 \/ wd c <= wfull - Z.max 0 wm) s) -> (right = true -> wm <= wfull) ->
    exists evs, flow wd right wm wfull s evs /\
      write_loop cw wfull s (split_fuel s) right wm 0 0 (-1) 0 1 [] = Ret evs.
  Proof.
    intros H1 H2. apply (write_loop_first right wm (split_fuel s) [] s None); auto.
    - intros [].
    - apply fits_nil.
    - apply ls_none. constructor.
    - cbn [app]. unfold split_fuel, n. nia.
  Qed.

  (** ** No loss, whatever the widths *)
  Definition whole (t : list Z) (evs : list wevent) : Prop :=
    exists ls z bs, t = reassemble (combine ls bs) z /\ length bs = length ls
      /\ Forall (fun b => b = Some 10 \/ b = Some 32 \/ b = None) bs
      /\ filter (fun e => match e with WMove => false | _ => true end) evs
         = map WLine ls ++ match z with [] => [] | _ => [WLast z (width wd z)] end.

  Lemma whole_line t evs line b :
    whole t evs -> b = Some 10 \/ b = Some 32 \/ b = None ->
    whole (match b with Some c => line ++ c :: t | None => line ++ t end) (WLine line :: evs).
  Proof.
    intros (ls & z & bs & Et & Hl & Hb & Hf) Hbb.
    exists (line :: ls), z, (b :: bs). cbn [combine reassemble length]. rewrite Hl.
    split; [destruct b; now rewrite Et|]. split; [reflexivity|].
    split; [now constructor|]. cbn [filter map]. now rewrite Hf.
  Qed.

  Lemma whole_move t evs : whole t evs -> whole t (WMove :: evs).
  Proof. intros (ls & z & bs & H). exists ls, z, bs. exact H. Qed.

  Lemma write_loop_whole fuel : forall right wm pre cur post evs o nl,
    s = pre ++ cur ++ post -> no_nl cur -> last_sep sp cur o ->
    (length (cur ++ post) * S n + length post < fuel)%nat ->
    exists new, whole (cur ++ post) new /\
      write_loop cw wfull s fuel right wm (Z.of_nat (length (pre ++ cur))) (Z.of_nat (length pre))
                 (sep_code (Z.of_nat (length pre)) o) (width wd cur) nl evs
      = Ret (evs ++ new).
  Proof.
    induction fuel as [|fuel IH]; intros right wm pre cur post evs o nl Es Hnl Hls Hfuel; [lia|].
    assert (Hn : n = (length pre + length cur + length post)%nat).
    { unfold n. rewrite Es, !app_length. lia. }
    cbn [write_loop]. fold n.
    destruct post as [|c post].
    - rewrite app_nil_r in *.
      replace (Z.of_nat (length (pre ++ cur)) <? Z.of_nat n) with false
        by (rewrite app_length; simpl in *; lia).
      destruct cur as [|x cur].
      + rewrite app_nil_r, Z.eqb_refl. exists []. split; [|now rewrite app_nil_r].
        exists [], [], []. repeat split; constructor.
      + replace (_ =? _) with false by (rewrite app_length; simpl; lia).
        rewrite (slice_eq s pre (x :: cur) []) by (try (rewrite app_nil_r; exact Es); cbn [length] in *; lia).
        eexists. split; [|reflexivity]. exists [], (x :: cur), []. repeat split; constructor.
    - replace (Z.of_nat (length (pre ++ cur)) <? Z.of_nat n) with true
        by (rewrite app_length; simpl in *; lia).
      destruct (snoc_facts pre cur c post o Es Hls) as (Hat & Hin & Hls' & Hw & Hsep).
      rewrite Hat. cbv zeta. rewrite Hsep. clear Hsep Hat.
      destruct (c =? 10) eqn:Enl.
      + apply Z.eqb_eq in Enl. subst c.
        rewrite (slice_eq s pre cur (10 :: post)) by (try exact Es; rewrite ?app_length; lia).
        destruct (IH (if nl =? 1 then false else right) (if nl =? 1 then wfull else wm)
                     (pre ++ cur ++ [10]) [] post (evs ++ [WLine cur]) None (nl + 1)) as (new & Hg & Hrun).
        { rewrite Es, <- !app_assoc. reflexivity. }
        { intros []. }
        { apply ls_none. constructor. }
        { rewrite app_length in Hfuel. cbn [app length] in *. nia. }
        exists (WLine cur :: new). split; [apply (whole_line post new cur (Some 10)); auto|].
        cbn [app sep_code] in Hrun. rewrite app_nil_r in Hrun.
        replace (Z.of_nat (length (pre ++ cur)) + 1)
          with (Z.of_nat (length (pre ++ cur ++ [10]))) by (rewrite !app_length; simpl; lia).
        change (width wd []) with 0 in Hrun. rewrite Hrun. rewrite <- app_assoc. reflexivity.
      + apply Z.eqb_neq in Enl. rewrite (cov_at c Hin Enl), Hw.
        remember (if sp c then Some (length cur) else o) as o' eqn:Eo'.
        assert (Hstep : forall right' wm' evs' nl', exists new, whole (cur ++ c :: post) new /\
           write_loop cw wfull s fuel right' wm' (Z.of_nat (length (pre ++ cur)) + 1) (Z.of_nat (length pre))
             (sep_code (Z.of_nat (length pre)) o') (width wd (cur ++ [c])) nl' evs' = Ret (evs' ++ new)).
        { intros right' wm' evs' nl'.
          destruct (IH right' wm' pre (cur ++ [c]) post evs' o' nl') as (new & Hg & Hrun).
          { rewrite Es, <- app_assoc. reflexivity. }
          { now apply no_nl_snoc. }
          { exact Hls'. }
          { rewrite <- app_assoc. rewrite !app_length in *. cbn [app length] in *. lia. }
          exists new. split; [now rewrite <- app_assoc in Hg|].
          replace (Z.of_nat (length (pre ++ cur)) + 1) with (Z.of_nat (length (pre ++ cur ++ [c])))
            by (rewrite !app_length; simpl; lia).
          exact Hrun. }
        destruct (wm <? width wd (cur ++ [c])) eqn:Eov; [|apply Hstep].
        inversion Hls' as [Hno Eo|a x w Ecur Hx Hwns Eo]; cbn [sep_code].
        -- replace (-1 =? -1) with true by reflexivity.
           destruct right.
           { destruct (Hstep false wfull (evs ++ [WMove]) (nl + 1)) as (new & Hg & Hrun).
             rewrite <- Eo in Hrun. cbn [sep_code] in Hrun.
             exists (WMove :: new). split; [now apply whole_move|]. rewrite Hrun, <- app_assoc. reflexivity. }
           destruct cur as [|y cur].
           ++ rewrite app_nil_r, Z.eqb_refl.
              rewrite (slice_eq s pre [c] post) by (try exact Es; simpl; lia).
              destruct (IH (if nl =? 1 then false else false) (if nl =? 1 then wfull else wm)
                 (pre ++ [c]) [] post (evs ++ [WLine [c]]) None (nl + 1)) as (new & Hg & Hrun).
              { rewrite Es, <- !app_assoc. reflexivity. }
              { intros []. }
              { apply ls_none. constructor. }
              { cbn [app length] in *. nia. }
              exists (WLine [c] :: new). split; [apply (whole_line post new [c] None); auto|].
              cbn [app sep_code] in Hrun. rewrite app_nil_r in Hrun.
              replace (Z.of_nat (length pre) + 1) with (Z.of_nat (length (pre ++ [c]))) by (rewrite app_length; simpl; lia).
              change (width wd []) with 0 in Hrun. rewrite Hrun. rewrite <- app_assoc. reflexivity.
           ++ replace (Z.of_nat (length (pre ++ y :: cur)) =? Z.of_nat (length pre)) with false
                by (rewrite app_length; simpl; lia).
              rewrite (slice_eq s pre (y :: cur) (c :: post)) by (try exact Es; rewrite ?app_length; lia).
              destruct (IH (if nl =? 1 then false else false) (if nl =? 1 then wfull else wm)
                 (pre ++ y :: cur) [] (c :: post) (evs ++ [WLine (y :: cur)]) None (nl + 1)) as (new & Hg & Hrun).
              { rewrite Es, <- !app_assoc. reflexivity. }
              { intros []. }
              { apply ls_none. constructor. }
              { rewrite app_length in Hfuel. cbn [app length] in *. nia. }
              exists (WLine (y :: cur) :: new). split; [apply (whole_line (c :: post) new (y :: cur) None); auto|].
              cbn [app sep_code] in Hrun. rewrite app_nil_r in Hrun.
              change (width wd []) with 0 in Hrun. rewrite Hrun. rewrite <- app_assoc. reflexivity.
        -- replace (Z.of_nat (length pre) + Z.of_nat (length a) =? -1) with false by lia.
           assert (Es2 : s = pre ++ a ++ x :: w ++ post).
           { rewrite Es. f_equal. change (c :: post) with ([c] ++ post).
             rewrite app_assoc, Ecur, <- app_assoc. reflexivity. }
           rewrite (slice_eq s pre a (x :: w ++ post)) by (try exact Es2; lia).
           assert (Hlen : (length cur + 1 = length a + S (length w))%nat).
           { apply (f_equal (@length Z)) in Ecur. rewrite !app_length in Ecur. simpl in Ecur. lia. }
           destruct (IH (if nl =? 1 then false else right) (if nl =? 1 then wfull else wm)
              (pre ++ a ++ [x]) [] (w ++ post) (evs ++ [WLine a]) None (nl + 1)) as (new & Hg & Hrun).
           { rewrite Es2, <- !app_assoc. reflexivity. }
           { intros []. }
           { apply ls_none. constructor. }
           { rewrite app_length in Hfuel. cbn [app]. rewrite !app_length. cbn [length] in *. nia. }
           exists (WLine a :: new). split.
           { replace (cur ++ c :: post) with (a ++ x :: w ++ post).
             2:{ change (c :: post) with ([c] ++ post). rewrite (app_assoc cur), Ecur, <- app_assoc. reflexivity. }
             apply Z.eqb_eq in Hx. subst x.
             apply (whole_line (w ++ post) new a (Some 32)); auto. }
           cbn [app sep_code] in Hrun. rewrite app_nil_r in Hrun.
           replace (Z.of_nat (length pre) + Z.of_nat (length a) + 1)
             with (Z.of_nat (length (pre ++ a ++ [x]))) by (rewrite !app_length; simpl; lia).
           change (width wd []) with 0 in Hrun. rewrite Hrun. rewrite <- app_assoc. reflexivity.
  Qed.

  Lemma write_run_whole right wm :
    exists evs, whole s evs /\ write_loop cw wfull s (split_fuel s) right wm 0 0 (-1) 0 1 [] = Ret evs.
  Proof.
    apply (write_loop_whole (split_fuel s) right wm [] [] s [] None 1); auto.
    - intros [].
    - apply ls_none. constructor.
    - cbn [app]. unfold split_fuel, n. nia.
  Qed.
End Loop.
