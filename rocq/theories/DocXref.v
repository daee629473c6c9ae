(** The cross-reference section, written and read back. *)
From Verif Require Import Base TextModel Crypto DocModel DocSpec DocProofs DocWalk.
From Coq Require Import String Permutation.
Open Scope Z_scope.
Notation length := List.length.
Local Notation "a +++ b" := (List.app a b) (at level 60, right associativity, only parsing).

Definition entry_text (o : Z) : bytes := (dec_pad 10 o +++ bs " 00000 n ") +++ nl.
Definition xref_text (n x : Z) (offs : list Z) (trailer : bytes) : bytes :=
  bs "xref" +++ nl +++ (bs "0 " +++ dec (n + 1)) +++ nl +++ bs "0000000000 65535 f " +++ nl +++
  List.concat (map entry_text offs) +++ bs "trailer" +++ nl +++ bs "<<" +++ nl +++ trailer +++ bs ">>" +++ nl +++
  bs "startxref" +++ nl +++ dec x +++ nl +++ bs "%%EOF" +++ nl.

Lemma digits_app k acc ds s :
  length ds = k -> Forall (fun c => is_digit c = true) ds ->
  digits k acc (ds +++ s) = Some (fold_left (fun a c => a * 10 + (c - 48)) ds acc, s).
Proof.
  intros <- F. revert acc. induction F as [|c ds Hc F IH]; intros acc; [reflexivity|].
  cbn [length app digits fold_left]. rewrite Hc. apply IH.
Qed.
Lemma dec_fuel_len m fuel n : 0 <= n -> n < 10 ^ Z.of_nat (S m) -> (length (dec_fuel fuel n []) <= S m)%nat.
Proof.
  revert fuel n. induction m as [|m IH]; intros fuel n H0 H1.
  - destruct fuel as [|f]; [cbn; lia|]. cbn [dec_fuel]. change (10 ^ Z.of_nat 1) with 10 in H1. replace (n <? 10) with true by lia. cbn. lia.
  - destruct fuel as [|f]; [cbn; lia|]. cbn [dec_fuel]. destruct (n <? 10) eqn:E; [cbn; lia|].
    rewrite dec_fuel_acc, app_length. cbn [length].
    assert (length (dec_fuel f (n / 10) []) <= S m)%nat; [|lia].
    apply IH; [apply Z.div_pos; lia|]. apply Z.div_lt_upper_bound; [lia|].
    rewrite Nat2Z.inj_succ, Z.pow_succ_r in H1 by lia. lia.
Qed.
Lemma fold_zeros k acc : fold_left (fun a c => a * 10 + (c - 48)) (repeat 48 k) (acc * 0) = 0.
Proof. rewrite Z.mul_0_r. induction k as [|k IH]; [reflexivity|]. cbn [repeat fold_left]. exact IH. Qed.
Lemma digits_pad o s : 0 <= o < 10 ^ 10 -> digits 10 0 (dec_pad 10 o +++ s) = Some (o, s).
Proof.
  intros H.
  assert (Hl : (length (dec o) <= 10)%nat).
  { unfold dec. replace (o <? 0) with false by lia. unfold dec_nat. apply dec_fuel_len; [lia|]. exact (proj2 H). }
  unfold dec_pad. rewrite digits_app.
  - rewrite fold_left_app. pose proof (fold_zeros (10 - length (dec o)) 0) as Z0. rewrite Z.mul_0_r in Z0. rewrite Z0.
    unfold dec at 1. replace (o <? 0) with false by lia. unfold dec_nat. rewrite dec_fuel_value; [|lia|apply dec_nat_bound; lia].
    now rewrite Z.mul_0_l.
  - rewrite app_length, repeat_length. lia.
  - apply Forall_app. split; [apply Forall_forall; intros c Hc; apply repeat_spec in Hc; now subst|].
    unfold dec. replace (o <? 0) with false by lia. apply dec_nat_digits.
Qed.
Lemma read_entry_text o s : 0 <= o < 10 ^ 10 -> read_entry (entry_text o +++ s) = Some (InUse o 0, s).
Proof.
  intros H. unfold read_entry, entry_text. rewrite <- ?app_assoc. rewrite (digits_pad o _ H). reflexivity.
Qed.
Lemma read_entries_text offs s : Forall (fun o => 0 <= o < 10 ^ 10) offs ->
  read_entries (length offs) (List.concat (map entry_text offs) +++ s) = Some (map (fun o => InUse o 0) offs, s).
Proof.
  induction 1 as [|o offs Ho F IH]; [reflexivity|]. cbn [length map List.concat read_entries].
  rewrite <- app_assoc. rewrite read_entry_text by exact Ho. now rewrite IH.
Qed.
Lemma strip_app p s : strip p (p +++ s) = Some s.
Proof.
  unfold strip. replace (prefixb p (p +++ s)) with true.
  - now rewrite skipn_app, skipn_all, Nat.sub_diag.
  - symmetry. apply prefixb_spec. now exists s.
Qed.
Lemma read_table_text n x offs tr :
  Forall (fun o => 0 <= o < 10 ^ 10) offs -> zlen offs = n ->
  read_table (xref_text n x offs tr) = Some (Free 0 65535 :: map (fun o => InUse o 0) offs,
    bs "trailer" +++ nl +++ bs "<<" +++ nl +++ tr +++ bs ">>" +++ nl +++ bs "startxref" +++ nl +++ dec x +++ nl +++ bs "%%EOF" +++ nl).
Proof.
  intros F Hn. unfold read_table, xref_text.
  assert (E1 : forall r, bs "xref" +++ nl +++ (bs "0 " +++ dec (n + 1)) +++ r = (bs "xref" +++ nl +++ bs "0 ") +++ dec (n + 1) +++ r)
    by (intros; now rewrite <- ?app_assoc).
  rewrite E1. change eol with nl. rewrite strip_app.
  rewrite read_dec_dec by (try reflexivity; pose proof (zlen_nonneg offs); lia).
  change nl with [10] at 1. cbn [app].
  replace (Z.to_nat (n + 1)) with (S (length offs)) by (unfold zlen in Hn; lia). cbn [read_entries].
  assert (E2 : forall r, read_entry (bs "0000000000 65535 f " +++ nl +++ r) = Some (Free 0 65535, r)) by reflexivity.
  rewrite E2. rewrite read_entries_text by exact F. reflexivity.
Qed.

(** the offsets printed by the loop *)
Lemma xref_lines_spec k : forall j w, ok (xref_lines j k w) ->
  exists offs, length offs = k /\ (forall i, (i < k)%nat -> at_ (w_offs w) (j + Z.of_nat i) = nth_error offs i) /\
    writes w (xref_lines j k w) (List.concat (map entry_text offs)) /\ w_tab (xref_lines j k w) = w_tab w.
Proof.
  induction k as [|k IH]; intros j w Hok.
  - exists []. split; [reflexivity|]. split; [intros; lia|]. split; [apply writes_refl|reflexivity].
  - cbn [xref_lines] in *. destruct (at_ (w_offs w) j) as [o|] eqn:Ej.
    + destruct (IH (j + 1) (out (dec_pad 10 o +++ bs " 00000 n ") w) Hok) as (offs & L & H & W & T).
      exists (o :: offs). split; [cbn; lia|]. split; [|split].
      * intros [|i] Hi; [now rewrite Z.add_0_r|]. cbn [nth_error]. rewrite <- H by lia.
        replace (j + Z.of_nat (S i)) with (j + 1 + Z.of_nat i) by lia. reflexivity.
      * cbn [map List.concat]. eapply writes_trans; [|exact W]. unfold entry_text. apply writes_out.
      * now rewrite T.
    + exfalso. clear - Hok. cut (w_panic (xref_lines (j + 1) k (panic w)) = true); [destruct Hok; congruence|].
      assert (G : forall k j w, w_panic w = true -> w_panic (xref_lines j k w) = true).
      { clear. induction k as [|k IH]; intros j w H; [exact H|]. cbn [xref_lines]. apply IH. now destruct (at_ (w_offs w) j). }
      now apply G.
Qed.

Definition trailer_text (n : Z) (enc : option Z) : bytes :=
  (bs "/Size " +++ dec (n + 1)) +++ nl +++ (bs "/Root " +++ dec n +++ bs " 0 R") +++ nl +++ (bs "/Info " +++ dec (n - 1) +++ bs " 0 R") +++ nl +++
  match enc with Some k => (bs "/Encrypt " +++ dec k +++ bs " 0 R") +++ nl +++ bs "/ID [()()]" +++ nl | None => [] end.

Section X.
  Context {E : env} (d : doc (e_num E)).
  Definition enc_ref (w : wst) : option Z := match d_protect d with Some _ => Some (saved SEnc w) | None => None end.
  Lemma put_trailer_writes w : writes w (put_trailer d w) (trailer_text (w_n w) (enc_ref w)).
  Proof.
    unfold put_trailer, trailer_text, enc_ref. cbv zeta. rewrite !n_out.
    pose proof (writes_snoc _ _ _ (bs "/Info " +++ dec (w_n w - 1) +++ bs " 0 R") (writes_snoc _ _ _ (bs "/Root " +++ dec (w_n w) +++ bs " 0 R") (writes_out (bs "/Size " +++ dec (w_n w + 1)) w))) as H.
    rewrite <- ?app_assoc in H. rewrite <- ?app_assoc. destruct (d_protect d).
    - pose proof (writes_snoc _ _ _ (bs "/ID [()()]") (writes_snoc _ _ _ (bs "/Encrypt " +++ dec (saved SEnc w) +++ bs " 0 R") H)) as H2.
      rewrite <- ?app_assoc in H2. rewrite <- ?app_assoc. exact H2.
    - rewrite app_nil_r. exact H.
  Qed.
  Lemma put_xref_spec w : ok (put_xref d w) -> 0 <= w_n w ->
    exists offs, zlen offs = w_n w /\ (forall k, 1 <= k <= w_n w -> at_ (w_offs w) k = nth_error offs (Z.to_nat (k - 1))) /\
      w_buf (put_xref d w) = w_buf w +++ xref_text (w_n w) (zlen (w_buf w)) offs (trailer_text (w_n w) (enc_ref w)) /\ ok w /\ w_n (put_xref d w) = w_n w.
  Proof.
    unfold put_xref. cbv zeta. rewrite !n_out. intros Hok Hn.
    set (v := out (bs "0000000000 65535 f ") (out (bs "0 " +++ dec (w_n w + 1)) (out (bs "xref") w))) in *.
    assert (W0 : writes w v (bs "xref" +++ nl +++ (bs "0 " +++ dec (w_n w + 1)) +++ nl +++ bs "0000000000 65535 f " +++ nl)).
    { pose proof (writes_snoc _ _ _ (bs "0000000000 65535 f ") (writes_snoc _ _ _ (bs "0 " +++ dec (w_n w + 1)) (writes_out (bs "xref") w))) as H.
      rewrite <- ?app_assoc in H. rewrite <- ?app_assoc. exact H. }
    set (u := xref_lines 1 (Z.to_nat (w_n w)) v) in *.
    assert (Wt := put_trailer_writes (out (bs "<<") (out (bs "trailer") u))).
    assert (Hu : ok u).
    { do 3 apply ok_out in Hok. apply (wr_ok _ _ _ Wt) in Hok. exact Hok. }
    destruct (xref_lines_spec (Z.to_nat (w_n w)) 1 v Hu) as (offs & L & H & W1 & T). fold u in W1, T.
    assert (Nu : w_n u = w_n w) by (rewrite (wr_n _ _ _ W1); reflexivity).
    assert (Eu : enc_ref (out (bs "<<") (out (bs "trailer") u)) = enc_ref w).
    { unfold enc_ref. destruct (d_protect d); [|reflexivity]. unfold saved. rewrite !tab_out, T. reflexivity. }
    rewrite Eu in Wt. rewrite !n_out, Nu in Wt.
    exists offs. split; [unfold zlen; lia|]. split; [|split; [|split]].
    - intros k Hk. rewrite <- H by lia. change (w_offs v) with (w_offs w). f_equal. lia.
    - pose proof (writes_trans _ _ _ _ _ (writes_snoc _ _ _ (bs "<<") (writes_snoc _ _ _ (bs "trailer") (writes_trans _ _ _ _ _ W0 W1))) Wt) as G.
      apply (writes_snoc _ _ _ (bs ">>")), (writes_snoc _ _ _ (bs "startxref")), (writes_snoc _ _ _ (dec (zlen (w_buf w)))), (writes_snoc _ _ _ (bs "%%EOF")), wr_buf in G.
      rewrite G. f_equal. unfold xref_text. rewrite <- ?app_assoc. reflexivity.
    - apply (wr_ok _ _ _ W0), (wr_ok _ _ _ W1), Hu.
    - change (w_n (put_trailer d (out (bs "<<") (out (bs "trailer") u))) = w_n w). rewrite (wr_n _ _ _ Wt). exact Nu.
  Qed.
End X.
