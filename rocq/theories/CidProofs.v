(** Proofs about generateCIDFontMap. *)
From Coq Require Import String FinFun.
From Verif Require Import Base KeyMap CidModel CidSpec.
Open Scope Z_scope.
Notation length := List.length.

(** ** The shape of the key maps used *)
Definition ints (a n : nat) : list key := map (fun i => KInt (Z.of_nat i)) (seq a n).
Definition canon (km : keymap) (ws : list Z) (io : option nat) : Prop :=
  match io with
  | None => km_keys km = ints 0 (length ws) /\ km_vals km = ws
  | Some i => (2 <= i <= length ws)%nat /\ km_keys km = ints 0 i ++ interval :: ints i (length ws - i) /\
              km_vals km = firstn i ws ++ 1 :: skipn i ws
  end.
Lemma in_ints j a n : In (KInt j) (ints a n) <-> Z.of_nat a <= j < Z.of_nat (a + n).
Proof.
  unfold ints. rewrite in_map_iff. split.
  - intros (i & [= <-] & H). apply in_seq in H. lia.
  - intros H. exists (Z.to_nat j). split; [f_equal; lia|]. apply in_seq. lia.
Qed.
Lemma interval_ints a n : ~ In interval (ints a n).
Proof. unfold ints. rewrite in_map_iff. intros (i & H & _). discriminate. Qed.
Lemma ints_length a n : length (ints a n) = n.
Proof. unfold ints. now rewrite map_length, seq_length. Qed.
Lemma ints_app a n m : ints a n ++ ints (a + n) m = ints a (n + m).
Proof. unfold ints. now rewrite <- map_app, <- seq_app. Qed.
Lemma ints_nodup a n : NoDup (ints a n).
Proof. apply Injective_map_NoDup; [intros x y [= H]; lia|apply seq_NoDup]. Qed.
Lemma canon_in km ws io j : canon km ws io -> (In (KInt j) (km_keys km) <-> 0 <= j < Z.of_nat (length ws)).
Proof.
  destruct io as [i|]; cbn [canon].
  - intros (Hi & -> & _). rewrite in_app_iff. cbn [In]. rewrite !in_ints. split; [intros [H|[H|H]]; [lia|discriminate|lia]|].
    intros H. destruct (Z.ltb_spec j (Z.of_nat i)); [left|right; right]; lia.
  - intros [-> _]. rewrite in_ints. lia.
Qed.
Lemma canon_ok km ws io : canon km ws io -> km_ok km.
Proof.
  destruct io as [i|]; cbn [canon].
  - intros (Hi & K & V). constructor; rewrite K, ?V.
    + rewrite !app_length. cbn [length]. rewrite !ints_length, firstn_length, skipn_length. lia.
    + apply (NoDup_Add (a := interval) (l := ints 0 i ++ ints i (length ws - i))); [apply Add_app|].
      rewrite (ints_app 0 i). split; [apply ints_nodup|apply interval_ints].
  - intros [K V]. constructor; rewrite K, ?V; [apply ints_length|apply ints_nodup].
Qed.
Lemma canon_len km ws io : canon km ws io -> length (km_keys km) = (length ws + match io with Some _ => 1 | None => 0 end)%nat.
Proof.
  destruct io as [i|]; cbn [canon].
  - intros (Hi & -> & _). rewrite app_length. cbn [length]. rewrite !ints_length. lia.
  - intros [-> _]. rewrite ints_length. lia.
Qed.
Lemma canon_put km ws io v : canon km ws io -> exists km', put None v km = Ret km' /\ canon km' (ws ++ [v]) io.
Proof.
  intros C. pose proof (canon_ok _ _ _ C) as [L N].
  destruct (free_int_spec km (S (length (km_keys km))) 0) as (n & F & Hn & Hf & Hl); try lia; [exact N|].
  unfold put. rewrite F. cbn [obind]. eexists. split; [reflexivity|].
  assert (n = Z.of_nat (length ws)).
  { rewrite (canon_in _ _ _ _ C) in Hf. destruct (Z.eq_dec n (Z.of_nat (length ws))); [assumption|]. exfalso.
    assert (In (KInt (Z.of_nat (length ws))) (km_keys km)) as H by (apply Hl; lia). rewrite (canon_in _ _ _ _ C) in H. lia. }
  subst n. destruct io as [i|]; cbn [canon] in *; unfold km_append; cbn [km_keys km_vals].
  - destruct C as (Hi & K & V). rewrite app_length. cbn [length]. split; [lia|]. rewrite K, V. rewrite <- !app_assoc. cbn [app]. split.
    + do 2 f_equal. replace (length ws + 1 - i)%nat with (length ws - i + 1)%nat by lia. rewrite <- ints_app. f_equal. cbn. do 3 f_equal. lia.
    + rewrite firstn_app, skipn_app. replace (i - length ws)%nat with 0%nat by lia. cbn [firstn skipn]. now rewrite app_nil_r.
  - destruct C as [K V]. rewrite K, V, app_length. cbn [length]. split; [|reflexivity]. rewrite <- ints_app. f_equal.
Qed.
Lemma canon_get0 km a ws io : canon km (a :: ws) io -> get (KInt 0) km = Ret a.
Proof.
  intros C. pose proof (canon_ok _ _ _ C) as O. rewrite get_value by exact O. unfold value. destruct io as [i|]; cbn [canon] in C.
  - destruct C as (Hi & -> & ->). destruct i as [|i]; [lia|]. reflexivity.
  - destruct C as [-> ->]. reflexivity.
Qed.
Lemma index_interval km ws io : canon km ws io -> get_index km interval = match io with Some i => Z.of_nat i | None => -1 end.
Proof.
  intros C. unfold get_index. rewrite index_pos. destruct io as [i|]; cbn [canon] in C.
  - destruct C as (Hi & -> & _). rewrite pos_app_r by apply interval_ints. cbn [pos]. rewrite keqb_refl. cbn [option_map]. rewrite ints_length. f_equal. lia.
  - destruct C as [-> _]. rewrite (proj2 (pos_none _ _) (interval_ints _ _)). reflexivity.
Qed.
Lemma replace_at_app {A} (a b : list A) x v : replace_at (length a) v (a ++ x :: b) = a ++ v :: b.
Proof. induction a as [|y a IH]; [reflexivity|]. cbn. now rewrite IH. Qed.
Lemma canon_interval km ws io : canon km ws io -> (2 <= length ws)%nat -> exists km' io', put (Some interval) 1 km = Ret km' /\ canon km' ws (Some io').
Proof.
  intros C H. pose proof (index_interval _ _ _ C) as I. unfold put. rewrite I. destruct io as [i|]; cbn [canon] in C.
  - destruct C as (Hi & K & V). replace (Z.of_nat i <? 0) with false by lia. rewrite V, app_length. cbn [length]. rewrite firstn_length, skipn_length.
    match goal with |- context [if ?b then _ else Panic] => replace b with true by lia end. eexists _, i. split; [reflexivity|]. cbn [canon km_keys km_vals]. split; [exact Hi|]. split; [exact K|].
    rewrite Nat2Z.id. replace i with (length (firstn i ws)) at 1 by (rewrite firstn_length; lia). now rewrite replace_at_app.
  - destruct C as [K V]. cbn. eexists _, (length ws). split; [reflexivity|]. cbn [canon km_append km_keys km_vals]. split; [lia|].
    rewrite K, V, Nat.sub_diag, firstn_all, skipn_all. split; reflexivity.
Qed.
Lemma canon_pop km ws v : canon km (ws ++ [v]) None -> exists km', pop km = Ret km' /\ canon km' ws None.
Proof.
  intros [K V]. unfold pop. rewrite K, V. rewrite app_length. cbn [length]. rewrite <- (ints_app 0). cbn [Nat.add].
  change (ints (length ws) 1) with [KInt (Z.of_nat (length ws))].
  destruct (ints 0 (length ws) ++ [KInt (Z.of_nat (length ws))]) eqn:E1; [now destruct (ints 0 (length ws))|].
  destruct (ws ++ [v]) eqn:E2; [now destruct ws|]. rewrite <- E1, <- E2, !removelast_last. eexists. split; [reflexivity|]. split; reflexivity.
Qed.
Lemma cut_app {A} (a b : list A) x : cut (length a) (a ++ x :: b) = a ++ b.
Proof.
  rewrite cut_spec by (rewrite app_length; cbn; lia). rewrite firstn_app, Nat.sub_diag, firstn_O, app_nil_r, firstn_all. f_equal.
  replace (S (length a)) with (length (a ++ [x])) by (rewrite app_length; cbn; lia). change (a ++ x :: b) with (a ++ [x] ++ b). rewrite app_assoc, skipn_app, skipn_all, Nat.sub_diag. reflexivity.
Qed.
Lemma canon_delete km ws io : canon km ws io -> canon (delete interval km) ws None.
Proof.
  intros C. pose proof (index_interval _ _ _ C) as I. unfold delete. rewrite I. destruct io as [i|]; [|exact C].
  destruct C as (Hi & K & V). replace (0 <=? Z.of_nat i) with true by lia. rewrite Nat2Z.id. cbn [canon km_keys km_vals]. rewrite K, V. split.
  - replace i with (length (ints 0 i)) at 1 by apply ints_length. rewrite cut_app, (ints_app 0). f_equal. lia.
  - replace i with (length (firstn i ws)) at 1 by (rewrite firstn_length; lia). rewrite cut_app. apply firstn_skipn.
Qed.

Lemma find_set_same k a m : find_arr k (set_arr k a m) = Ret a.
Proof. unfold set_arr. cbn. now rewrite Z.eqb_refl. Qed.
Lemma find_set_other k j a m : j <> k -> find_arr j (set_arr k a m) = find_arr j m.
Proof.
  intros H. unfold set_arr. cbn [find_arr]. replace (k =? j) with false by lia. induction m as [|[x b] m IH]; [reflexivity|]. cbn [filter fst].
  destruct (Z.eqb_spec x k) as [->|]; cbn [negb find_arr]; [replace (k =? j) with false by lia; exact IH|]. now rewrite IH.
Qed.

(** ** Segments *)
Record seg := { sg_key : Z; sg_ws : list Z; sg_io : option nat }.
Fixpoint pairs (k : Z) (ws : list Z) : list (Z * Z) := match ws with [] => [] | w :: t => (k, w) :: pairs (k + 1) t end.
Definition flat (l : list seg) : list (Z * Z) := flat_map (fun g => pairs (sg_key g) (sg_ws g)) l.
Definition stored_in (m : arrays) (g : seg) : Prop := exists km, find_arr (sg_key g) m = Ret km /\ canon km (sg_ws g) (sg_io g).

Lemma pairs_app k a b : pairs k (a ++ b) = pairs k a ++ pairs (k + Z.of_nat (length a)) b.
Proof.
  revert k. induction a as [|x a IH]; intros k; cbn [app pairs length]; [f_equal; lia|]. rewrite IH. do 3 f_equal. lia.
Qed.
Lemma flat_app a b : flat (a ++ b) = flat a ++ flat b.
Proof. apply flat_map_app. Qed.

(** ** First loop *)
Record inv (s : cst) (init : list seg) (g : seg) (L : list (Z * Z)) : Prop := {
  i_keys : c_keys s = map sg_key init ++ [sg_key g];
  i_range : c_range s = sg_key g;
  i_arr : Forall (stored_in (c_arr s)) (init ++ [g]);
  i_lt : Forall (fun h => sg_key h < sg_key g) init;
  i_nodup : NoDup (c_keys s);
  i_pos : Forall (fun h => 1 <= sg_key h /\ sg_ws h <> []) (init ++ [g]);
  i_prev : c_prev s = sg_key g + Z.of_nat (length (sg_ws g)) - 1;
  i_pw : exists t, sg_ws g = t ++ [c_pw s];
  i_int : c_int s = match sg_io g with None => false | Some _ => true end;
  i_hd : sg_io g <> None -> exists t, sg_ws g = c_pw s :: t;
  i_flat : flat (init ++ [g]) = L }.

Lemma stored_other m k a g : sg_key g <> k -> stored_in m g -> stored_in (set_arr k a m) g.
Proof. intros H (km & F & C). exists km. split; [now rewrite find_set_other|exact C]. Qed.
Lemma stored_others m k a l : Forall (fun h => sg_key h <> k) l -> Forall (stored_in m) l -> Forall (stored_in (set_arr k a m)) l.
Proof. intros H F. rewrite Forall_forall in *. intros g Hg. apply stored_other; auto. Qed.

(** the last segment replaced *)
Lemma inv_last s init g L a ws io pw cid it :
  inv s init g L -> stored_in a {| sg_key := sg_key g; sg_ws := ws; sg_io := io |} -> Forall (stored_in a) init ->
  ws = sg_ws g ++ [pw] -> cid = c_prev s + 1 -> it = (match io with None => false | Some _ => true end) -> (io <> None -> exists t, ws = pw :: t) ->
  inv {| c_range := c_range s; c_arr := a; c_keys := c_keys s; c_prev := cid; c_pw := pw; c_int := it |} init {| sg_key := sg_key g; sg_ws := ws; sg_io := io |} (L ++ [(cid, pw)]).
Proof.
  intros I H1 H2 E Ec Ei Hh. destruct I. constructor; cbn [c_keys c_range c_arr c_prev c_pw c_int sg_key sg_ws sg_io]; auto.
  - apply Forall_app. split; [exact H2|]. repeat constructor. exact H1.
  - apply Forall_app in i_pos0 as [X Y]. apply Forall_app. split; [exact X|]. inversion Y as [|? ? [P Q] _]; subst. repeat constructor; cbn; [lia|]. now destruct (sg_ws g).
  - rewrite E, app_length. cbn. lia.
  - eauto.
  - rewrite !flat_app in *. cbn [flat flat_map sg_key sg_ws] in *. rewrite E, pairs_app. rewrite <- i_flat0, <- !app_assoc. cbn. rewrite ?app_nil_r. do 3 f_equal. f_equal. lia.
Qed.
(** a new segment *)
Lemma inv_new s init g L a cid w :
  inv s init g L -> c_prev s < cid -> stored_in a {| sg_key := cid; sg_ws := [w]; sg_io := None |} -> Forall (stored_in a) (init ++ [g]) ->
  inv {| c_range := cid; c_arr := a; c_keys := c_keys s ++ [cid]; c_prev := cid; c_pw := w; c_int := false |} (init ++ [g]) {| sg_key := cid; sg_ws := [w]; sg_io := None |} (L ++ [(cid, w)]).
Proof.
  intros I Hc H1 H2. destruct I. assert (HL : Forall (fun h => sg_key h < cid) (init ++ [g])).
  { apply Forall_app in i_pos0 as [_ Y]. inversion Y as [|? ? [P Q] _]; subst. assert (sg_key g < cid) by (destruct (sg_ws g); [easy|cbn in *; lia]).
    apply Forall_app. split; [|now repeat constructor]. eapply Forall_impl; [|exact i_lt0]. intros h Hh. cbn in Hh. lia. }
  assert (1 <= cid). { apply Forall_app in HL as [_ Y]. apply Forall_app in i_pos0 as [_ Z]. inversion Y; inversion Z as [|? ? [P _] _]; subst. lia. }
  constructor; cbn [c_keys c_range c_arr c_prev c_pw c_int sg_key sg_ws sg_io]; auto.
  - rewrite i_keys0, map_app. reflexivity.
  - apply Forall_app. split; [exact H2|]. now repeat constructor.
  - apply NoDup_rev in i_nodup0. rewrite <- (rev_involutive (c_keys s ++ [cid])). apply NoDup_rev. rewrite rev_app_distr. cbn. constructor; [|exact i_nodup0].
    rewrite <- in_rev, i_keys0, in_app_iff. intros [X|[X|[]]].
    + apply in_map_iff in X as (h & X & Hh). rewrite Forall_forall in HL. assert (sg_key h < cid) by (apply HL, in_or_app; now left). lia.
    + rewrite Forall_forall in HL. assert (sg_key g < cid) by (apply HL, in_or_app; right; now left). lia.
  - apply Forall_app. split; [exact i_pos0|]. repeat constructor; cbn; [lia|discriminate].
  - cbn. lia.
  - now exists [].
  - intros X. now destruct X.
  - rewrite flat_app, i_flat0. reflexivity.
Qed.

Lemma put_nil_spec' k v m g : stored_in m g -> sg_key g = k -> exists km, put_nil k v m = Ret (set_arr k km m) /\ canon km (sg_ws g ++ [v]) (sg_io g).
Proof.
  intros (km & F & C) <-. destruct (canon_put _ _ _ v C) as (km' & P & C'). exists km'. unfold put_nil, upd_arr. rewrite F. cbn [obind]. rewrite P. split; [reflexivity|exact C'].
Qed.
Lemma last_stored m init g : Forall (stored_in m) (init ++ [g]) -> Forall (stored_in m) init /\ stored_in m g.
Proof. intros H. apply Forall_app in H as [X Y]. inversion Y. now split. Qed.
Lemma lt_neq init k : Forall (fun h => sg_key h < k) init -> Forall (fun h => sg_key h <> k) init.
Proof. apply Forall_impl. intros h Hh. cbn in Hh. lia. Qed.

Lemma step_inv s init g L cid w : inv s init g L -> c_prev s < cid ->
  exists s' init' g', cid_step cid w s = Ret s' /\ inv s' init' g' (L ++ [(cid, w)]) /\ c_prev s' = cid.
Proof.
  intros I Hc. pose proof I as [iK iR iA iL iN iP iV iW iI iH iF]. destruct (last_stored _ _ _ iA) as [SA SG].
  assert (NG : Forall (fun h => sg_key h <> cid) (init ++ [g])).
  { apply Forall_app in iP as [_ Y]. inversion Y as [|? ? [P Q] _]; subst. assert (sg_key g < cid) by (destruct (sg_ws g); [easy|cbn in *; lia]).
    apply Forall_app. split; [|repeat constructor; lia]. eapply Forall_impl; [|exact iL]. intros h Hh. cbn in Hh. lia. }
  assert (FRESH : forall a, Forall (stored_in a) (init ++ [g]) -> exists km, put_nil cid w (set_arr cid km_new a) = Ret (set_arr cid km (set_arr cid km_new a)) /\
     canon km [w] None /\ stored_in (set_arr cid km (set_arr cid km_new a)) {| sg_key := cid; sg_ws := [w]; sg_io := None |} /\ Forall (stored_in (set_arr cid km (set_arr cid km_new a))) (init ++ [g])).
  { intros a Ha. destruct (put_nil_spec' cid w (set_arr cid km_new a) {| sg_key := cid; sg_ws := []; sg_io := None |}) as (km & P & C); [|reflexivity|].
    - exists km_new. split; [apply find_set_same|split; reflexivity].
    - exists km. split; [exact P|]. split; [exact C|]. split; [exists km; split; [apply find_set_same|exact C]|]. apply stored_others; [exact NG|]. apply stored_others; [exact NG|exact Ha]. }
  unfold cid_step. destruct (Z.eqb_spec cid (c_prev s + 1)) as [Ec|Ec].
  - destruct (Z.eqb_spec w (c_pw s)) as [Ew|Ew].
    + destruct SG as (km & F & C). rewrite iR, F. cbn [obind].
      destruct iW as (t & Et). destruct (sg_ws g) as [|a ws] eqn:Eg; [now destruct t|].
      rewrite (canon_get0 _ _ _ _ C). cbn [obind]. destruct (Z.eqb_spec w a) as [Ea|Ea].
      * (* same width again *)
        destruct (put_nil_spec' (sg_key g) w (c_arr s) g) as (km1 & P1 & C1); [now exists km; rewrite Eg|reflexivity|].
        rewrite P1. cbn [obind with_arr with_int c_range c_arr]. rewrite iR. unfold upd_arr. rewrite find_set_same. cbn [obind].
        rewrite Eg in C1. destruct (canon_interval _ _ _ C1) as (km2 & io2 & P2 & C2); [rewrite app_length; cbn; lia|].
        rewrite P2. cbn [obind with_prev c_range c_keys c_arr c_int]. eexists _, init, _. split; [reflexivity|]. split; [|reflexivity].
        cbn [with_int with_arr c_range c_keys c_prev c_pw]. apply (inv_last s init g L _ ((a :: ws) ++ [w]) (Some io2) w cid true I).
        -- exists km2. split; [apply find_set_same|exact C2].
        -- apply stored_others; [now apply lt_neq|]. apply stored_others; [now apply lt_neq|exact SA].
        -- now rewrite Eg.
        -- exact Ec.
        -- reflexivity.
        -- intros _. exists (ws ++ [w]). now rewrite Ea.
      * (* split *)
        assert (Eio : sg_io g = None). { destruct (sg_io g) as [i|] eqn:Ei; [|reflexivity]. destruct iH as (t' & Et'); [discriminate|]. injection Et' as X _. congruence. }
        rewrite Eio in C. rewrite Et in C. destruct (canon_pop _ _ _ C) as (km1 & P1 & C1). unfold upd_arr at 1. rewrite F. cbn [obind]. rewrite P1. cbn [obind].
        cbn [new_range with_arr c_range c_arr c_pw c_prev].
        destruct t as [|x t]; [injection Et as -> ->; congruence|]. injection Et as <- Et.
        assert (Hpk : c_prev s = sg_key g + Z.of_nat (length (a :: t))). { rewrite iV, ?Eg, Et. cbn [length]. rewrite app_length. cbn [length]. lia. }
        assert (NP : Forall (fun h => sg_key h <> c_prev s) init). { eapply Forall_impl; [|exact iL]. intros h Hh. cbn [length] in Hpk. cbn in Hh. lia. }
        assert (NPg : sg_key g <> c_prev s) by (cbn [length] in Hpk; lia).
        set (a0 := set_arr (sg_key g) km1 (c_arr s)). set (a1 := set_arr (c_prev s) km_new a0).
        destruct (put_nil_spec' (c_prev s) (c_pw s) a1 {| sg_key := c_prev s; sg_ws := []; sg_io := None |}) as (km2 & P2 & C2); [exists km_new; split; [apply find_set_same|split; reflexivity]|reflexivity|].
        rewrite P2. cbn [obind]. set (a2 := set_arr (c_prev s) km2 a1).
        destruct (put_nil_spec' (c_prev s) w a2 {| sg_key := c_prev s; sg_ws := [c_pw s]; sg_io := None |}) as (km3 & P3 & C3); [exists km2; split; [apply find_set_same|exact C2]|reflexivity|].
        rewrite P3. cbn [obind with_arr with_int c_range c_arr]. set (a3 := set_arr (c_prev s) km3 a2).
        unfold upd_arr. unfold a3 at 1. rewrite find_set_same. cbn [obind]. cbn [sg_ws sg_io app] in C3.
        destruct (canon_interval _ _ _ C3) as (km4 & io4 & P4 & C4); [cbn; lia|]. rewrite P4. cbn [obind with_prev c_range c_keys c_arr c_int].
        set (a4 := set_arr (c_prev s) km4 a3).
        assert (KEEP : forall h, sg_key h <> c_prev s -> stored_in a0 h -> stored_in a4 h). { intros h Hh X. unfold a4, a3, a2, a1. repeat (apply stored_other; [exact Hh|]). exact X. }
        eexists _, (init ++ [{| sg_key := sg_key g; sg_ws := a :: t; sg_io := None |}]), {| sg_key := c_prev s; sg_ws := [c_pw s; w]; sg_io := Some io4 |}.
        split; [reflexivity|]. split; [|reflexivity].
        constructor; cbn [new_range with_arr with_int with_prev c_keys c_range c_arr c_prev c_pw c_int sg_key sg_ws sg_io].
        -- rewrite map_app. cbn. now rewrite iK.
        -- reflexivity.
        -- rewrite <- app_assoc. apply Forall_app. split; [|constructor; [|constructor; [|constructor]]].
           ++ rewrite Forall_forall in *. intros h Hh. apply KEEP; [now apply NP|]. apply stored_other; [|now apply SA]. specialize (iL h Hh). lia.
           ++ apply KEEP; [exact NPg|]. exists km1. split; [apply find_set_same|exact C1].
           ++ exists km4. split; [apply find_set_same|exact C4].
        -- apply Forall_app. split; [|constructor; [|constructor]].
           ++ eapply Forall_impl; [|exact iL]. intros h Hh. cbn [length] in Hpk. cbn in Hh. lia.
           ++ cbn [sg_key]. cbn [length] in Hpk. lia.
        -- rewrite iK. rewrite iK in iN. apply NoDup_rev in iN. rewrite <- (rev_involutive ((map sg_key init ++ [sg_key g]) ++ [c_prev s])). apply NoDup_rev.
           rewrite rev_app_distr. cbn [rev app]. constructor; [|exact iN]. rewrite <- in_rev, in_app_iff. intros [X|[X|[]]]; [|contradiction].
           apply in_map_iff in X as (h & X & Hh). rewrite Forall_forall in NP. now apply (NP h).
        -- apply Forall_app in iP as [X Y]. inversion Y as [|? ? [P Q] _]; subst. rewrite <- app_assoc. apply Forall_app. split; [exact X|]. repeat constructor; cbn [sg_key sg_ws]; try lia; try discriminate.
        -- cbn. lia.
        -- exists [c_pw s]. reflexivity.
        -- reflexivity.
        -- intros _. exists [w]. now rewrite Ew.
        -- rewrite !flat_app. rewrite flat_app in iF. cbn [flat flat_map sg_key sg_ws] in *. rewrite ?Eg, Et in iF. change (a :: t ++ [c_pw s]) with ((a :: t) ++ [c_pw s]) in iF.
           rewrite pairs_app in iF. rewrite <- iF, <- !app_assoc, !app_nil_r. f_equal. f_equal. rewrite Hpk. cbn [pairs app]. rewrite Ec, Hpk. reflexivity.
    + destruct (c_int s) eqn:Ei.
      * cbn [new_range c_range c_arr]. destruct (FRESH (c_arr s) iA) as (km & P & C & S1 & S2). rewrite P. cbn [obind with_arr with_int with_prev c_range c_keys c_arr c_int].
        eexists _, (init ++ [g]), _. split; [reflexivity|]. split; [|reflexivity]. now apply inv_new.
      * destruct (put_nil_spec' (c_range s) w (c_arr s) g) as (km1 & P1 & C1); [exact SG|now symmetry|].
        rewrite P1. cbn [obind with_arr with_int with_prev c_range c_keys c_arr c_int]. eexists _, init, _. split; [reflexivity|]. split; [|reflexivity].
        assert (Eio : sg_io g = None) by (destruct (sg_io g); [discriminate|reflexivity]).
        apply (inv_last s init g L _ (sg_ws g ++ [w]) None w cid false I); try easy.
        -- exists km1. rewrite iR. rewrite Eio in C1. split; [apply find_set_same|exact C1].
        -- rewrite iR. apply stored_others; [now apply lt_neq|exact SA].
  - cbn [new_range c_range c_arr]. destruct (FRESH (c_arr s) iA) as (km & P & C & S1 & S2). rewrite P. cbn [obind with_arr with_int with_prev c_range c_keys c_arr c_int].
    eexists _, (init ++ [g]), _. split; [reflexivity|]. split; [|reflexivity]. now apply inv_new.
Qed.

(** the characters that get an entry, with their width *)
Fixpoint emitted (cw : list Z) (used : Z -> Z) (k : nat) (cid : Z) : list (Z * Z) :=
  match k with
  | O => []
  | S k' => match cid_width cw used cid with Ret (Some w) => (cid, w) :: emitted cw used k' (cid + 1) | _ => emitted cw used k' (cid + 1) end
  end.
Lemma cid_width_ret cw used cid : (Z.to_nat cid < length cw)%nat -> exists ow, cid_width cw used cid = Ret ow.
Proof.
  intros H. unfold cid_width. destruct (nth_error cw (Z.to_nat cid)) eqn:E; [|apply nth_error_None in E; lia].
  destruct (z =? 0); [eauto|]. destruct ((255 <? cid) && (used cid =? 0)); eauto.
Qed.
Lemma loop_inv cw used k : forall cid s init g L, inv s init g L -> c_prev s < cid -> 1 <= cid -> (Z.to_nat cid + k <= length cw)%nat ->
  exists s' init' g', cid_loop cw used k cid s = Ret s' /\ inv s' init' g' (L ++ emitted cw used k cid).
Proof.
  induction k as [|k IH]; intros cid s init g L I Hc H1 Hl; cbn [cid_loop emitted].
  - exists s, init, g. rewrite app_nil_r. now split.
  - destruct (cid_width_ret cw used cid) as (ow & E); [lia|]. rewrite E. cbn [obind]. destruct ow as [w|].
    + destruct (step_inv s init g L cid w I Hc) as (s1 & i1 & g1 & E1 & I1 & P1). rewrite E1. cbn [obind].
      destruct (IH (cid + 1) s1 i1 g1 _ I1) as (s2 & i2 & g2 & E2 & I2); try lia. exists s2, i2, g2. split; [exact E2|]. rewrite <- app_assoc in I2. exact I2.
    + cbn [obind]. apply (IH (cid + 1) s init g L I); lia.
Qed.
Definition c0 : cst := {| c_range := 0; c_arr := []; c_keys := []; c_prev := -2; c_pw := -1; c_int := false |}.
Lemma first_step cid w : 1 <= cid -> exists s', cid_step cid w c0 = Ret s' /\ inv s' [] {| sg_key := cid; sg_ws := [w]; sg_io := None |} [(cid, w)] /\ c_prev s' = cid.
Proof.
  intros H. unfold cid_step. cbn [c_prev c0]. replace (cid =? -2 + 1) with false by lia. cbn [new_range c_range c_arr].
  destruct (put_nil_spec' cid w (set_arr cid km_new []) {| sg_key := cid; sg_ws := []; sg_io := None |}) as (km & P & C); [exists km_new; split; [apply find_set_same|split; reflexivity]|reflexivity|].
  cbn [c_arr c0] in *. rewrite P. cbn [obind with_arr with_int with_prev c_range c_keys c_arr c_int]. eexists. split; [reflexivity|]. split; [|reflexivity].
  constructor; cbn [new_range with_arr with_int with_prev c_keys c_range c_arr c_prev c_pw c_int c0 sg_key sg_ws sg_io app map]; auto.
  - constructor; [|constructor]. exists km. split; [apply find_set_same|exact C].
  - repeat constructor. intros [].
  - repeat constructor; cbn; [lia|discriminate].
  - cbn. lia.
  - now exists [].
  - intros X. now destruct X.
Qed.

(** what the first loop leaves: segments whose contents are the emitted pairs *)
Record segs (m : arrays) (keys : list Z) (l : list seg) : Prop := {
  s_keys : keys = map sg_key l; s_nodup : NoDup keys; s_arr : Forall (stored_in m) l; s_pos : Forall (fun h => 1 <= sg_key h /\ sg_ws h <> []) l }.
Lemma loop_segs cw used k : forall cid, 1 <= cid -> (Z.to_nat cid + k <= length cw)%nat ->
  exists s l, cid_loop cw used k cid c0 = Ret s /\ segs (c_arr s) (c_keys s) l /\ flat l = emitted cw used k cid.
Proof.
  induction k as [|k IH]; intros cid H1 Hl; cbn [cid_loop emitted].
  - exists c0, []. split; [reflexivity|]. split; [|reflexivity]. constructor; constructor.
  - destruct (cid_width_ret cw used cid) as (ow & E); [lia|]. rewrite E. cbn [obind]. destruct ow as [w|]; [|cbn [obind]; apply IH; lia].
    destruct (first_step cid w H1) as (s1 & E1 & I1 & P1). rewrite E1. cbn [obind].
    destruct (loop_inv cw used k (cid + 1) s1 _ _ _ I1) as (s2 & i2 & g2 & E2 & I2); try lia. exists s2, (i2 ++ [g2]). split; [exact E2|].
    destruct I2. split; [|exact i_flat0]. constructor; auto. rewrite map_app. exact i_keys0.
Qed.

(** ** Second loop *)
Lemma merge_loop_spec a1 : get_index a1 interval < 0 -> forall ks vs ans ws, length ks = length vs -> ~ In interval ks -> canon ans ws None ->
  exists m, merge_loop a1 ks vs ans = Ret m /\ canon m (ws ++ vs) None.
Proof.
  intros Ha. induction ks as [|k ks IH]; intros [|v vs] ans ws L Hi C; try discriminate; cbn [merge_loop].
  - exists ans. rewrite app_nil_r. now split.
  - replace (keqb k interval) with false by (symmetry; apply keqb_neq; intros ->; apply Hi; now left).
    destruct (canon_put ans ws None v C) as (a' & P & C'). rewrite P. cbn [obind].
    destruct (IH vs a' (ws ++ [v])) as (m & E & Cm); [now injection L|intros X; apply Hi; now right|exact C'|].
    exists m. split; [exact E|]. rewrite <- app_assoc in Cm. exact Cm.
Qed.
Lemma array_merge_spec a1 w1 a2 w2 : canon a1 w1 None -> canon a2 w2 None -> exists m, array_merge a1 a2 = Ret m /\ canon m (w1 ++ w2) None.
Proof.
  intros C1 C2. unfold array_merge. destruct C2 as [K V]. rewrite K, V. apply merge_loop_spec.
  - rewrite (index_interval _ _ _ C1). lia.
  - apply ints_length.
  - apply interval_ints.
  - exact C1.
Qed.
Lemma last_place_app k a b : ~ In k b -> last_place k (a ++ k :: b) = length a.
Proof.
  intros H. unfold last_place. rewrite fold_left_app. cbn [fold_left fst snd]. rewrite Z.eqb_refl.
  assert (F1 : forall l p q, fst (fold_left (fun (e : nat * nat) x => (S (fst e), if x =? k then fst e else snd e)) l (p, q)) = (length l + p)%nat).
  { induction l as [|x l IH]; intros p q; [reflexivity|]. cbn [fold_left fst snd length]. rewrite IH. lia. }
  assert (F2 : forall l p q, ~ In k l -> snd (fold_left (fun (e : nat * nat) x => (S (fst e), if x =? k then fst e else snd e)) l (p, q)) = q).
  { induction l as [|x l IH]; intros p q Hn; [reflexivity|]. cbn [fold_left fst snd]. cbn in Hn. replace (x =? k) with false by lia. apply IH. tauto. }
  rewrite F2 by exact H. rewrite F1. lia.
Qed.
Lemma remove_key_spec k a b : NoDup (a ++ k :: b) -> remove_key k (a ++ k :: b) = a ++ b.
Proof.
  intros N. unfold remove_key. rewrite last_place_app; [apply cut_app|]. apply NoDup_remove_2 in N. rewrite in_app_iff in N. tauto.
Qed.

Record ginv (s : gst) (P R : list seg) (L : list (Z * Z)) : Prop := {
  gi_keys : g_keys s = map sg_key P ++ map sg_key R;
  gi_nodup : NoDup (g_keys s);
  gi_arr : Forall (stored_in (g_arr s)) (P ++ R);
  gi_pos : Forall (fun h => 1 <= sg_key h /\ sg_ws h <> []) (P ++ R);
  gi_done : Forall (fun h => sg_io h = None) P;
  gi_next : match P with [] => g_next s = -1 | _ => exists P' h, P = P' ++ [h] /\ g_prevkey s = sg_key h /\ g_next s = sg_key h + Z.of_nat (length (sg_ws h)) end;
  gi_flat : flat (P ++ R) = L }.

Lemma stored_set m k km ws io g : canon km ws io -> g = {| sg_key := k; sg_ws := ws; sg_io := io |} -> stored_in (set_arr k km m) g.
Proof. intros C ->. exists km. split; [apply find_set_same|exact C]. Qed.
Lemma snoc_nonnil {A} (l : list A) x : l ++ [x] <> [].
Proof. now destruct l. Qed.

Lemma merge_ranges_spec f : forall s P R L, ginv s P R L -> (length R < f)%nat ->
  exists s' P', merge_ranges f (length P) s = Ret s' /\ ginv s' P' [] L.
Proof.
  induction f as [|f IH]; intros s P R L I Hf; [lia|]. pose proof I as [gK gN gA gP gD gX gF]. cbn [merge_ranges].
  destruct R as [|h R].
  - replace (nth_error (g_keys s) (length P)) with (@None Z). { exists s, P. now split. }
    symmetry. apply nth_error_None. rewrite gK, app_length, !map_length. cbn. lia.
  - replace (nth_error (g_keys s) (length P)) with (Some (sg_key h)). 2:{ rewrite gK. cbn [map]. rewrite nth_error_app2 by now rewrite map_length. now rewrite map_length, Nat.sub_diag. }
    apply Forall_app in gA as [AP AR]. inversion AR as [|? ? Sh AR']; subst. clear AR. destruct Sh as (ws & F & C). rewrite F. cbn [obind].
    assert (Nk : ~ In (sg_key h) (map sg_key P) /\ ~ In (sg_key h) (map sg_key R)).
    { rewrite gK in gN. cbn [map] in gN. apply NoDup_remove_2 in gN. rewrite in_app_iff in gN. tauto. }
    destruct Nk as [NkP NkR].
    assert (DP : Forall (fun g => sg_key g <> sg_key h) P). { apply Forall_forall. intros g Hg E. apply NkP. rewrite <- E. now apply in_map. }
    assert (DR : Forall (fun g => sg_key g <> sg_key h) R). { apply Forall_forall. intros g Hg E. apply NkR. rewrite <- E. now apply in_map. }
    pose proof gP as gP0. apply Forall_app in gP as [PP PR]. inversion PR as [|? ? [Ph1 Ph2] PR']; subst. clear PR.
    pose proof (index_interval _ _ _ C) as II. pose proof (canon_len _ _ _ C) as LL. pose proof (canon_delete _ _ _ C) as CD.
    set (h0 := {| sg_key := sg_key h; sg_ws := sg_ws h; sg_io := None |}).
    match goal with |- context [obind (if ?b then _ else _) _] => destruct b eqn:Eb end.
    + (* merged into the previous range *)
      apply andb_prop in Eb as [Eb Eb3]. apply andb_prop in Eb as [Eb1 Eb2]. apply Z.eqb_eq in Eb1.
      destruct P as [|p0 P0] eqn:EP; [lia|]. rewrite <- EP in *. destruct gX as (P' & g & Eg & Gk & Gn). clear EP p0 P0.
      assert (Dg : sg_key g <> sg_key h). { rewrite Forall_forall in DP. apply DP. rewrite Eg. apply in_or_app. right. now left. }
      assert (Sg : stored_in (g_arr s) g). { rewrite Forall_forall in AP. apply AP. rewrite Eg. apply in_or_app. right. now left. }
      assert (Ig : sg_io g = None). { rewrite Forall_forall in gD. apply gD. rewrite Eg. apply in_or_app. right. now left. }
      set (wd := if 0 <=? get_index ws interval then delete interval ws else ws).
      assert (Cw : canon wd (sg_ws h) None). { unfold wd. destruct (0 <=? get_index ws interval) eqn:E; [exact CD|]. rewrite II in E. destruct (sg_io h); [lia|exact C]. }
      set (view := if 0 <=? get_index ws interval then alias_view interval ws else ws).
      assert (Ev : view = ws).
      { unfold view. destruct (0 <=? get_index ws interval) eqn:E; [|reflexivity]. unfold alias_view. rewrite II in *. destruct (sg_io h) as [i|] eqn:Ei; [|lia].
        destruct C as (Hi & _). rewrite LL in *. replace (Z.of_nat i <? Z.of_nat (length (sg_ws h) + 1) - 1) with false by lia. now rewrite andb_false_r. }
      clearbody view. subst view. clearbody wd.
      set (a := set_arr (sg_key h) wd (g_arr s)).
      destruct Sg as (pm & Fp & Cp). rewrite Ig in Cp. rewrite Gk. unfold a at 1. rewrite find_set_other, Fp by exact Dg. cbn [obind].
      destruct (array_merge_spec _ _ _ _ Cp Cw) as (m & Em & Cm). rewrite Em. cbn [obind].
      set (g' := {| sg_key := sg_key g; sg_ws := sg_ws g ++ sg_ws h; sg_io := None |}).
      assert (Dpg : Forall (fun x => sg_key x <> sg_key g) P').
      { rewrite gK, Eg, map_app, <- app_assoc in gN. cbn in gN. apply NoDup_remove_2 in gN. apply Forall_forall. intros x Hx E. apply gN. rewrite in_app_iff. left. rewrite <- E. now apply in_map. }
      assert (DRg : Forall (fun x => sg_key x <> sg_key g) R).
      { rewrite gK, Eg, map_app, <- app_assoc in gN. cbn in gN. apply NoDup_remove_2 in gN. apply Forall_forall. intros x Hx E. apply gN. rewrite in_app_iff. right. right. rewrite <- E. now apply in_map. }
      assert (STORE : Forall (stored_in (set_arr (sg_key g) m a)) (P' ++ [g'] ++ R)).
      { rewrite Eg in AP, DP. apply Forall_app in AP as [AP _]. apply Forall_app in DP as [DP _]. apply Forall_app. split; [|apply Forall_app; split].
        - apply stored_others; [exact Dpg|]. apply stored_others; assumption.
        - constructor; [|constructor]. eapply stored_set; [exact Cm|reflexivity].
        - apply stored_others; [exact DRg|]. apply stored_others; assumption. }
      assert (KEYS : remove_key (sg_key h) (g_keys s) = map sg_key (P' ++ [g']) ++ map sg_key R).
      { rewrite gK. cbn [map]. rewrite remove_key_spec; [|rewrite gK in gN; exact gN]. rewrite Eg, !map_app. reflexivity. }
      assert (ND : NoDup (map sg_key (P' ++ [g']) ++ map sg_key R)).
      { rewrite gK in gN. cbn [map] in gN. apply NoDup_remove_1 in gN. rewrite Eg, map_app in gN. rewrite map_app. exact gN. }
      assert (POS : Forall (fun x => 1 <= sg_key x /\ sg_ws x <> []) ((P' ++ [g']) ++ R)).
      { rewrite Eg in PP. apply Forall_app in PP as [X Y]. inversion Y as [|? ? [Y1 Y2] _]; subst. apply Forall_app. split; [|exact PR']. apply Forall_app. split; [exact X|].
        constructor; [|constructor]. cbn. split; [exact Y1|]. now destruct (sg_ws g). }
      assert (DONE : Forall (fun x => sg_io x = None) (P' ++ [g'])). { rewrite Eg in gD. apply Forall_app in gD as [X _]. apply Forall_app. split; [exact X|]. now repeat constructor. }
      assert (FLAT : flat ((P' ++ [g']) ++ R) = flat (P ++ h :: R)).
      { rewrite Eg, !flat_app. cbn [flat flat_map]. rewrite <- !app_assoc. f_equal. cbn [sg_key sg_ws app g']. rewrite pairs_app, <- !app_assoc. do 2 f_equal. f_equal. lia. }
      assert (LEN : length P = length (P' ++ [g'])) by (rewrite Eg, !app_length; reflexivity). rewrite LEN.
      assert (Hnext : forall nx, nx = sg_key h + Z.of_nat (length (sg_ws h)) -> forall a' ii, Forall (stored_in a') (P' ++ [g'] ++ R) ->
        ginv {| g_arr := a'; g_keys := remove_key (sg_key h) (g_keys s); g_prevkey := sg_key g; g_next := nx; g_isint := ii |} (P' ++ [g']) R (flat (P ++ h :: R))).
      { intros nx -> a' ii Ha'. constructor; cbn [g_arr g_keys g_prevkey g_next]; auto.
        - rewrite KEYS. exact ND.
        - rewrite <- app_assoc. exact Ha'.
        - destruct (P' ++ [g']) eqn:E; [now destruct P'|]. rewrite <- E. exists P', g'. split; [reflexivity|]. split; [reflexivity|]. cbn [g' sg_key sg_ws]. rewrite app_length. lia. }
      cbn [g_arr g_keys g_prevkey g_next g_isint]. destruct (0 <=? get_index ws interval) eqn:E.
      * unfold upd_arr. rewrite find_set_other by congruence. unfold a at 1. rewrite find_set_same. cbn [obind].
        apply (IH _ (P' ++ [g']) R).
        -- apply Hnext. { rewrite LL. rewrite II in E. destruct (sg_io h); lia. }
           rewrite Forall_forall in *. intros x Hx. apply stored_other; [|now apply STORE].
           apply in_app_iff in Hx as [Hx|Hx]; [apply DP; rewrite Eg; apply in_or_app; now left|]. apply in_app_iff in Hx as [[<-|[]]|Hx]; [exact Dg|now apply DR].
        -- cbn in Hf. lia.
      * apply (IH _ (P' ++ [g']) R); [|cbn in Hf; lia]. apply Hnext; [|exact STORE]. rewrite LL. rewrite II in E. destruct (sg_io h); lia.
    + (* a range of its own *)
      cbn [obind]. cbn [g_arr g_keys g_prevkey g_next g_isint].
      assert (Hnext : forall nx, nx = sg_key h + Z.of_nat (length (sg_ws h)) -> forall a' ii, Forall (stored_in a') (P ++ [h0] ++ R) ->
        ginv {| g_arr := a'; g_keys := g_keys s; g_prevkey := sg_key h; g_next := nx; g_isint := ii |} (P ++ [h0]) R (flat (P ++ h :: R))).
      { intros nx -> a' ii Ha'. constructor; cbn [g_arr g_keys g_prevkey g_next]; auto.
        - rewrite gK, map_app, <- app_assoc. reflexivity.
        - rewrite <- app_assoc. exact Ha'.
        - rewrite <- app_assoc. apply Forall_app. split; [exact PP|]. constructor; [split; assumption|exact PR'].
        - apply Forall_app. split; [exact gD|]. now repeat constructor.
        - destruct (P ++ [h0]) eqn:E; [now destruct P|]. rewrite <- E. exists P, h0. now split.
        - rewrite <- app_assoc, !flat_app. f_equal. cbn [flat flat_map h0 sg_key sg_ws]. now rewrite app_nil_r. }
      replace (S (length P)) with (length (P ++ [h0])) by (rewrite app_length; cbn; lia).
      destruct (0 <=? get_index ws interval) eqn:E.
      * unfold upd_arr. rewrite F. cbn [obind]. apply (IH _ (P ++ [h0]) R); [|cbn in Hf; lia]. apply Hnext. { rewrite LL. rewrite II in E. destruct (sg_io h); lia. }
        apply Forall_app. split; [now apply stored_others|]. constructor; [|now apply stored_others]. eapply stored_set; [exact CD|reflexivity].
      * apply (IH _ (P ++ [h0]) R); [|cbn in Hf; lia]. rewrite II in E. destruct (sg_io h) eqn:Ei; [lia|]. apply Hnext. { rewrite LL. lia. }
        apply Forall_app. split; [exact AP|]. constructor; [|exact AR']. exists ws. now split.
Qed.

(** ** Printing and reading back *)
Definition is_sep (s : bytes) : Prop := match s with [] => True | c :: _ => is_digit c = false end.
Lemma toks_digits ds : Forall (fun c => is_digit c = true) ds -> forall acc s, is_sep s ->
  toks (Some acc) (ds ++ s) = option_map (cons (TNum (fold_left (fun a c => a * 10 + (c - 48)) ds acc))) (toks None s).
Proof.
  induction 1 as [|c ds Hc _ IH]; intros acc s Hs; cbn [app fold_left].
  - destruct s as [|c s]; [reflexivity|]. cbn in Hs. cbn [toks]. rewrite Hs. cbn [flush].
    destruct ((c =? 32) || (c =? 10)); [|destruct (c =? 91); [|destruct (c =? 93)]]; try (destruct (toks None s); reflexivity).
  - cbn [toks]. rewrite Hc. now apply IH.
Qed.
Lemma toks_dec n s : 0 <= n -> is_sep s -> toks None (dec n ++ s) = option_map (cons (TNum n)) (toks None s).
Proof.
  intros Hn Hs. pose proof (read_dec_dec n [] Hn I) as V. unfold dec in *. replace (n <? 0) with false in * by lia. rewrite app_nil_r in V.
  destruct (dec_nat_cons n) as (c & t & E & Hc). rewrite E in *.
  assert (F : Forall (fun c => is_digit c = true) (c :: t)). { rewrite <- E. apply dec_fuel_digits. }
  inversion F as [|? ? _ Ft]; subst. cbn [app toks]. rewrite Hc. rewrite toks_digits by assumption. do 2 f_equal.
  unfold read_dec in V. rewrite Hc in V. rewrite <- (app_nil_r (c :: t)) in V. rewrite read_digits_app in V; [|exact F|exact I]. injection V as V. cbn [fold_left] in V.
  replace (0 * 10 + (c - 48)) with (c - 48) in V by lia. now rewrite V.
Qed.
Lemma toks_sp s : toks None (32 :: s) = toks None s.
Proof. cbn. destruct (toks None s); reflexivity. Qed.
Lemma toks_implode l s : Forall (fun w => 0 <= w) l -> is_sep s -> toks None (implode (bs " ") l ++ s) = option_map (app (map TNum l)) (toks None s).
Proof.
  intros F Hs. induction F as [|x l Hx F IH]; [cbn; destruct (toks None s); reflexivity|]. cbn [implode map]. destruct l as [|y l].
  - rewrite toks_dec by assumption. now destruct (toks None s).
  - rewrite <- !app_assoc. rewrite toks_dec; [|exact Hx|reflexivity]. change (bs " " ++ implode (bs " ") (y :: l) ++ s) with (32 :: implode (bs " ") (y :: l) ++ s).
    rewrite toks_sp, IH. now destruct (toks None s).
Qed.

Definition seg_toks (g : seg) : list tok :=
  if Nat.eqb (count_values (sg_ws g)) 1
  then [TNum (sg_key g); TNum (sg_key g + Z.of_nat (length (sg_ws g)) - 1); TNum (hd 0 (sg_ws g))]
  else TNum (sg_key g) :: TOpen :: map TNum (sg_ws g) ++ [TClose].
Lemma print_spec m l : Forall (stored_in m) l -> Forall (fun h => sg_io h = None) l -> Forall (fun h => 1 <= sg_key h /\ sg_ws h <> []) l ->
  Forall (fun h => Forall (fun w => 0 <= w) (sg_ws h)) l ->
  exists b, print_ranges (map sg_key l) m = Ret b /\ is_sep b /\ toks None b = Some (flat_map seg_toks l).
Proof.
  intros A D P W. induction A as [|g l (km & F & C) A IH]; [exists []; split; [reflexivity|]; split; [exact I|reflexivity]|].
  inversion D as [|? ? Dg D']; inversion P as [|? ? [Pg1 Pg2] P']; inversion W as [|? ? Wg W']; subst.
  destruct (IH D' P' W') as (b & Eb & Sb & Tb). cbn [print_ranges map]. rewrite F. cbn [obind]. rewrite Dg in C. pose proof C as [K V]. rewrite V.
  destruct (Nat.eqb (count_values (sg_ws g)) 1) eqn:Ec.
  - destruct (sg_ws g) as [|w ws] eqn:Eg; [easy|]. rewrite (canon_get0 _ _ _ _ C). cbn [obind]. rewrite Eb. cbn [obind]. eexists. split; [reflexivity|]. split; [reflexivity|].
    rewrite <- !app_assoc. change (bs " ") with [32]. cbn [app]. rewrite toks_sp, toks_dec by (lia || reflexivity). rewrite toks_sp, toks_dec; [|cbn [length]; lia|reflexivity].
    inversion Wg; subst. rewrite toks_sp, toks_dec by assumption. rewrite Tb. cbn [option_map flat_map]. unfold seg_toks at 2. rewrite Eg, Ec. reflexivity.
  - cbn [obind]. rewrite Eb. cbn [obind]. eexists. split; [reflexivity|]. split; [reflexivity|].
    rewrite <- !app_assoc. change (bs " ") with [32] at 1. change (bs " [ ") with [32; 91; 32]. cbn [app]. rewrite toks_sp, toks_dec by (lia || reflexivity).
    rewrite toks_sp. change (toks None (91 :: 32 :: ?x)) with (option_map (fun l => flush None ++ [TOpen] ++ l) (toks None (32 :: x))).
    rewrite toks_sp, toks_implode; [|exact Wg|reflexivity]. change (bs " ]" ++ 10 :: b) with (32 :: 93 :: 10 :: b). rewrite toks_sp.
    change (toks None (93 :: 10 :: b)) with (option_map (fun l => flush None ++ [TClose] ++ l) (option_map (fun l => flush None ++ [] ++ l) (toks None b))).
    rewrite Tb. cbn [option_map flat_map flush app]. unfold seg_toks at 2. rewrite Ec. cbn [app]. rewrite <- app_assoc. reflexivity.
Qed.

Lemma entries_array ws r : forall c, entries (InArray c) (map TNum ws ++ TClose :: r) = option_map (app (pairs c ws)) (entries Start r).
Proof.
  induction ws as [|w ws IH]; intros c; cbn [map app entries pairs]; [now destruct (entries Start r)|]. rewrite IH. now destruct (entries Start r).
Qed.
Lemma run_pairs k w n : forall ws, ws = repeat w n -> run_of k (k + Z.of_nat n - 1) w = pairs k ws.
Proof.
  intros ws ->. unfold run_of. replace (Z.to_nat (k + Z.of_nat n - 1 - k + 1)) with n by lia.
  assert (G : forall j, map (fun i => (k + Z.of_nat i, w)) (seq j n) = pairs (k + Z.of_nat j) (repeat w n)).
  { induction n as [|n IH]; intros j; [reflexivity|]. cbn [seq map repeat pairs]. f_equal. rewrite IH. f_equal. lia. }
  rewrite G. f_equal. lia.
Qed.
Lemma one_value ws : count_values ws = 1%nat -> ws = repeat (hd 0 ws) (length ws).
Proof.
  unfold count_values. intros H. destruct (nodup Z.eq_dec ws) as [|w [|]] eqn:E; try discriminate.
  assert (A : forall x, In x ws -> x = w). { intros x Hx. apply (nodup_In Z.eq_dec) in Hx. rewrite E in Hx. now destruct Hx as [<-|[]]. }
  assert (Hh : ws <> [] -> hd 0 ws = w). { intros N. apply A. destruct ws; [easy|now left]. }
  clear E H. destruct ws as [|x ws]; [reflexivity|]. rewrite Hh by discriminate. clear Hh. revert A. generalize (x :: ws). clear.
  induction l as [|y l IH]; intros A; [reflexivity|]. cbn. rewrite <- IH by (intros z Hz; apply A; now right). f_equal. apply A. now left.
Qed.
Lemma entries_segs l : entries Start (flat_map seg_toks l) = Some (flat l).
Proof.
  induction l as [|g l IH]; [reflexivity|]. cbn [flat_map flat]. unfold seg_toks at 1. destruct (Nat.eqb_spec (count_values (sg_ws g)) 1) as [E|E].
  - cbn [app entries]. rewrite IH. cbn [option_map]. apply one_value in E. now rewrite (run_pairs _ _ _ _ E).
  - cbn [app entries]. rewrite <- app_assoc. cbn [app]. rewrite entries_array, IH. reflexivity.
Qed.
Lemma pairs_snd k ws : map snd (pairs k ws) = ws.
Proof. revert k. induction ws as [|w ws IH]; intros k; [reflexivity|]. cbn. now rewrite IH. Qed.
Lemma flat_nonneg l : Forall (fun e => 0 <= snd e) (flat l) -> Forall (fun h => Forall (fun w => 0 <= w) (sg_ws h)) l.
Proof.
  induction l as [|g l IH]; intros H; [constructor|]. cbn [flat flat_map] in H. apply Forall_app in H as [H1 H2]. constructor; [|now apply IH].
  rewrite <- (pairs_snd (sg_key g) (sg_ws g)). apply Forall_map. exact H1.
Qed.

Lemma w_line_spec cw used last : 0 <= last < Z.of_nat (length cw) -> Forall (fun w => 0 <= w) cw ->
  exists line, w_line cw used last = Ret line /\ w_entry line (emitted cw used (Z.to_nat last) 1).
Proof.
  intros Hl Hw. unfold w_line. destruct (loop_segs cw used (Z.to_nat last) 1) as (s & l & E & [sK sN sA sP] & F); [lia|lia|].
  fold c0. rewrite E. cbn [obind].
  destruct (merge_ranges_spec (S (2 * length (c_keys s))) {| g_arr := c_arr s; g_keys := c_keys s; g_prevkey := -1; g_next := -1; g_isint := false |} [] l (flat l)) as (g & P & Eg & G).
  - constructor; cbn [g_arr g_keys g_next app map]; auto.
  - rewrite sK, map_length. lia.
  - cbn [length] in Eg. rewrite Eg. cbn [obind]. destruct G as [gK gN gA gP gD gX gF]. rewrite app_nil_r in *. cbn [map] in gK. rewrite ?app_nil_r in gK. rewrite gK.
    destruct (print_spec (g_arr g) P gA gD gP) as (b & Eb & Sb & Tb).
    { apply flat_nonneg. rewrite gF, F. clear - Hw. generalize (Z.to_nat last) as k. generalize 1 as cid. intros cid k. revert cid. induction k as [|k IH]; intros cid; cbn [emitted]; [constructor|].
      unfold cid_width. destruct (nth_error cw (Z.to_nat cid)) as [w|] eqn:E; [|apply IH]. destruct (w =? 0); [apply IH|]. destruct ((255 <? cid) && (used cid =? 0)); [apply IH|].
      constructor; [|apply IH]. cbn. apply nth_error_In in E. rewrite Forall_forall in Hw. specialize (Hw w E). destruct (w =? 65535); lia. }
    rewrite Eb. cbn [obind]. eexists. split; [reflexivity|]. exists b, (flat_map seg_toks P). split; [reflexivity|]. split; [exact Tb|].
    rewrite entries_segs, gF, F. reflexivity.
Qed.
Lemma emitted_in cw used : forall k cid c w, 0 <= cid -> (In (c, w) (emitted cw used k cid) <-> cid <= c < cid + Z.of_nat k /\ cid_width cw used c = Ret (Some w)).
Proof.
  induction k as [|k IH]; intros cid c w H; cbn [emitted]; [split; [easy|lia]|].
  assert (G : In (c, w) (emitted cw used k (cid + 1)) <-> cid + 1 <= c < cid + 1 + Z.of_nat k /\ cid_width cw used c = Ret (Some w)) by (apply IH; lia).
  destruct (cid_width cw used cid) as [[x|]| |] eqn:E.
  - cbn [In]. rewrite G. split.
    + intros [[= <- <-]|X]; [split; [lia|exact E]|]. split; [lia|tauto].
    + intros [X1 X2]. destruct (Z.eq_dec c cid) as [->|]; [left; congruence|right]. split; [lia|exact X2].
  - rewrite G. split; [intros [X1 X2]; split; [lia|exact X2]|]. intros [X1 X2]. split; [|exact X2]. destruct (Z.eq_dec c cid) as [->|]; [congruence|lia].
  - rewrite G. split; [intros [X1 X2]; split; [lia|exact X2]|]. intros [X1 X2]. split; [|exact X2]. destruct (Z.eq_dec c cid) as [->|]; [congruence|lia].
  - rewrite G. split; [intros [X1 X2]; split; [lia|exact X2]|]. intros [X1 X2]. split; [|exact X2]. destruct (Z.eq_dec c cid) as [->|]; [congruence|lia].
Qed.
Lemma emitted_nodup cw used : forall k cid, 0 <= cid -> NoDup (map fst (emitted cw used k cid)).
Proof.
  induction k as [|k IH]; intros cid H; cbn [emitted]; [constructor|]. destruct (cid_width cw used cid) as [[x|]| |]; try (apply IH; lia).
  cbn. constructor; [|apply IH; lia]. intros X. apply in_map_iff in X as ([c w] & <- & X). apply emitted_in in X; [|lia]. cbn in X. lia.
Qed.
