(** Property theorem C34: the password data of a protected file. *)
From Verif Require Import Base TextModel TextSpec TextProofs Crypto DocModel DocSpec DocProofs DocXref DocEnd DocFile DocBack DocProps ProtectSpec ProtectModel.
From Coq Require Import String.
Open Scope Z_scope.
Local Notation "a +++ b" := (List.app a b) (at level 60, right associativity, only parsing).

Lemma read_int_dec n s : starts_nondigit s -> read_int (dec n ++ s) = Some (n, s).
Proof.
  intros Hs. destruct (n <? 0) eqn:En.
  - unfold dec. rewrite En. cbn [app read_int]. rewrite read_dec_nat by (lia || exact Hs). do 2 f_equal. lia.
  - assert (H := read_dec_dec n s ltac:(lia) Hs). unfold read_int. destruct (dec n ++ s) as [|c t] eqn:Ed; [exact H|].
    assert (Hc : is_digit c = true). { unfold read_dec in H. destruct (is_digit c); [reflexivity|discriminate]. }
    destruct (Z.eq_dec c 45) as [->|Hn]; [discriminate Hc|].
    destruct c as [|p|p]; try exact H. do 7 (destruct p as [p|p|]; try exact H; try lia).
Qed.

Lemma flag_cases (P : Z -> Prop) : (forall k, (k < 256)%nat -> P (Z.of_nat k)) -> forall f, 0 <= f < 256 -> P f.
Proof. intros H f Hf. rewrite <- (Z2Nat.id f) by lia. apply H. lia. Qed.

Definition pvalue (f : Z) : Z := - (Z.lxor (Z.lor 192 (Z.land f (Z.lor 16 (Z.lor 8 (Z.lor 4 32))))) 255 + 1).
Definition pflag (f : Z) : Z := Z.lor 192 (Z.land f (Z.lor 16 (Z.lor 8 (Z.lor 4 32)))).
Lemma land_lor_bits f i : 0 <= i -> Z.testbit (pflag f) i =
  if i =? 2 then Z.testbit f 2 else if i =? 3 then Z.testbit f 3 else if i =? 4 then Z.testbit f 4 else if i =? 5 then Z.testbit f 5 else (i =? 6) || (i =? 7).
Proof.
  intros Hi. unfold pflag. rewrite Z.lor_spec, Z.land_spec. change (Z.lor 16 (Z.lor 8 (Z.lor 4 32))) with 60.
  destruct (Z.ltb_spec i 8).
  - assert (i = 0 \/ i = 1 \/ i = 2 \/ i = 3 \/ i = 4 \/ i = 5 \/ i = 6 \/ i = 7) as C by lia.
    decompose [or] C; subst; cbn -[Z.testbit]; rewrite ?andb_false_r, ?andb_true_r; reflexivity.
  - replace (Z.testbit 192 i) with false. 2:{ symmetry. apply (Z.bits_above_log2 192); [lia|]. change (Z.log2 192) with 7. lia. }
    replace (Z.testbit 60 i) with false. 2:{ symmetry. apply (Z.bits_above_log2 60); [lia|]. change (Z.log2 60) with 5. lia. }
    rewrite andb_false_r. replace (i =? 2) with false by lia. replace (i =? 3) with false by lia. replace (i =? 4) with false by lia.
    replace (i =? 5) with false by lia. replace (i =? 6) with false by lia. replace (i =? 7) with false by lia. reflexivity.
Qed.
Lemma pvalue_bits f i : 0 <= i -> Z.testbit (pvalue f) i = if i <? 8 then Z.testbit (pflag f) i else true.
Proof.
  intros Hi. unfold pvalue. fold (pflag f). replace (- (Z.lxor (pflag f) 255 + 1)) with (Z.lnot (Z.lxor (pflag f) 255)) by (unfold Z.lnot; lia).
  rewrite Z.lnot_spec, Z.lxor_spec by lia. destruct (Z.ltb_spec i 8).
  - replace (Z.testbit 255 i) with true. { now destruct (Z.testbit (pflag f) i). }
    assert (i = 0 \/ i = 1 \/ i = 2 \/ i = 3 \/ i = 4 \/ i = 5 \/ i = 6 \/ i = 7) as C by lia. decompose [or] C; subst; reflexivity.
  - replace (Z.testbit 255 i) with false. 2:{ symmetry. apply (Z.bits_above_log2 255); [lia|]. change (Z.log2 255) with 7. lia. }
    rewrite land_lor_bits by lia. replace (i =? 2) with false by lia. replace (i =? 3) with false by lia. replace (i =? 4) with false by lia.
    replace (i =? 5) with false by lia. replace (i =? 6) with false by lia. replace (i =? 7) with false by lia. reflexivity.
Qed.
Lemma pvalue_permissions f : permissions (pvalue f) (Z.testbit f 2) (Z.testbit f 3) (Z.testbit f 4) (Z.testbit f 5).
Proof.
  intros i Hi. rewrite pvalue_bits by exact Hi. rewrite land_lor_bits by exact Hi.
  destruct (Z.eqb_spec i 2), (Z.eqb_spec i 3), (Z.eqb_spec i 4), (Z.eqb_spec i 5); subst; try reflexivity.
  destruct (Z.ltb_spec i 8); [|lia]. lia.
Qed.
Lemma pvalue_low f : low_first (pvalue f) = [pflag f; 255; 255; 255].
Proof.
  assert (Ev : pvalue f = pflag f - 256 /\ 0 <= pflag f < 256).
  { assert (Hr : 0 <= pflag f < 256).
    { assert (Z.land f (Z.lor 16 (Z.lor 8 (Z.lor 4 32))) = Z.land (f mod 256) 60) as E.
      { change (Z.lor 16 (Z.lor 8 (Z.lor 4 32))) with 60. apply Z.bits_inj'. intros n Hn. rewrite !Z.land_spec. change 256 with (2 ^ 8).
        destruct (Z.ltb_spec n 8); [now rewrite Z.mod_pow2_bits_low by lia|].
        replace (Z.testbit 60 n) with false; [now rewrite !andb_false_r|]. symmetry. apply (Z.bits_above_log2 60); [lia|]. change (Z.log2 60) with 5. lia. }
      unfold pflag. rewrite E. pose proof (Z.mod_pos_bound f 256 ltac:(lia)) as B. clear E.
      revert B. generalize (f mod 256). apply (flag_cases (fun g => 0 <= Z.lor 192 (Z.land g 60) < 256)).
      intros k Hk. do 256 (destruct k as [|k]; [vm_compute; split; [discriminate|reflexivity]|]). lia. }
    split; [|exact Hr]. unfold pvalue. fold (pflag f).
    revert Hr. generalize (pflag f). apply (flag_cases (fun g => - (Z.lxor g 255 + 1) = g - 256)).
    intros k Hk. do 256 (destruct k as [|k]; [reflexivity|]). lia. }
  destruct Ev as [-> Hr]. unfold low_first. f_equal; [|f_equal; [|f_equal; [|f_equal]]].
  - rewrite <- (Z.mod_add _ 1) by lia. rewrite Z.mod_small; lia.
  - replace ((pflag f - 256) / 256) with (-1) by (apply (Z.div_unique _ _ _ (pflag f)); lia). reflexivity.
  - replace ((pflag f - 256) / 65536) with (-1) by (apply (Z.div_unique _ _ _ (pflag f + 65280)); lia). reflexivity.
  - replace ((pflag f - 256) / 16777216) with (-1) by (apply (Z.div_unique _ _ _ (pflag f + 16776960)); lia). reflexivity.
Qed.

Lemma padded_length pw : List.length (padded pw) = 32%nat.
Proof. unfold padded. rewrite firstn_length, app_length. change (List.length pad_string) with 32%nat. lia. Qed.
Lemma padded_padded pw : padded (padded pw) = padded pw.
Proof. unfold padded at 1. rewrite firstn_app, padded_length, Nat.sub_diag, firstn_O, app_nil_r. apply firstn_all2. rewrite padded_length. lia. Qed.

Lemma pad_padding : pad_string = padding.
Proof. reflexivity. Qed.
Opaque rc4_new xor_stream firstn.
Lemma password_data md5 rnd flag user owner :
  let pr := set_protection md5 rnd flag user owner in
  let O := pr_o pr in let U := pr_u pr in let P := pr_p pr in
  pr_key pr = file_key md5 user O P [] /\ user_accepted md5 user O U P [] /\
  (let owner' := match owner with [] => le_bytes 8 rnd | _ => owner end in
   owner_recovers md5 owner' O = padded user /\ owner_accepted md5 owner' O U P []) /\
  permissions P (Z.testbit flag 2) (Z.testbit flag 3) (Z.testbit flag 4) (Z.testbit flag 5).
Proof.
  intros pr O U P.
  assert (K : pr_key pr = file_key md5 user O P []).
  { unfold file_key, O, P, pr, set_protection. cbn [pr_key pr_o pr_p]. change (low_first (- _)) with (low_first (pvalue flag)). rewrite pvalue_low. unfold padded.
    rewrite pad_padding, app_nil_r. reflexivity. }
  assert (A : user_accepted md5 user O U P []). { unfold user_accepted. rewrite <- K. unfold rc4. rewrite pad_padding. reflexivity. }
  assert (R : owner_recovers md5 (match owner with [] => le_bytes 8 rnd | _ => owner end) O = padded user).
  { unfold owner_recovers, O, pr, set_protection. cbn [pr_o]. unfold o_value_gen, rc4, padded. rewrite pad_padding. apply xor_stream_invol. }
  split; [exact K|]. split; [exact A|]. split.
  - split; [exact R|]. unfold owner_accepted. rewrite R. unfold user_accepted, file_key. rewrite padded_padded. exact A.
  - unfold P, pr, set_protection. cbn [pr_p]. apply pvalue_permissions.
Qed.

Transparent rc4_new xor_stream firstn.

Lemma encryption_in_file (E : env) (d : doc (e_num E)) (pre : bytes) pr :
  well_formed d -> finished d pre -> zlength (file_of d pre) < 10 ^ 10 -> d_protect d = Some pr ->
  exists k body a b,
      trailer_in (file_of d pre) (a +++ bs "/Encrypt " +++ dec k +++ bs " 0 R" +++ eol +++ bs "/ID [()()]" +++ eol +++ b) /\
      object_in (file_of d pre) k body /\ encryption_dict body (pr_o pr) (pr_u pr) (pr_p pr).
Proof.
  intros W F S Hp.
  destruct (enddoc_assembled d pre (well_formed_inputs d W) F) as (os & ps & oa & A).
  destruct (tables d _ _ _ _ _ A S) as (x & offs & enc & rest & Sx & Fx & Hl & R & Er & Eb & Ex & Hoff & He).
  rewrite Hp in He. destruct He as (k & -> & Hk).
  pose (n := w_n (enddoc d (w_init pre))).
  exists k, (enc_body pr), ((bs "/Size " +++ dec (n + 1)) +++ nl +++ (bs "/Root " +++ dec n +++ bs " 0 R") +++ nl +++ (bs "/Info " +++ dec (n - 1) +++ bs " 0 R") +++ nl), [].
  split; [|split].
  - exists x, (Free 0 65535 :: map (fun o => InUse o 0) offs), (bs "startxref" +++ nl +++ dec x +++ nl +++ bs "%%EOF" +++ nl). split; [exact Sx|].
    unfold file_of. rewrite R, Er. unfold trailer_text. change eol with nl. fold n. rewrite <- ?app_assoc. cbn [app]. reflexivity.
  - exact (lookup d _ _ _ _ _ A S _ _ Hk).
  - exists (textstring (pr_o pr) +++ eol +++ bs "/U " +++ textstring (pr_u pr) +++ eol +++ bs "/P " +++ dec (pr_p pr) +++ eol +++ bs ">>" +++ eol).
    exists (textstring (pr_u pr) +++ eol +++ bs "/P " +++ dec (pr_p pr) +++ eol +++ bs ">>" +++ eol).
    exists (dec (pr_p pr) +++ eol +++ bs ">>" +++ eol). split; [|split; [|split]].
    + unfold enc_body, textstring. change eol with nl. change (bs "/O (") with (bs "/O " +++ [40]). change (bs "/U (") with (bs "/U " +++ [40]). change (bs ")") with [41].
      set (O := escape (pr_o pr)). set (U := escape (pr_u pr)). rewrite <- ?app_assoc. cbn [app]. rewrite <- ?app_assoc. reflexivity.
    + apply textstring_roundtrip.
    + apply textstring_roundtrip.
    + apply read_int_dec. reflexivity.
Qed.

(** C34: after SetProtection(flag, user, owner), the encryption dictionary of
    the file, found through the trailer and read by the PDF rules, holds O, U
    and P such that the standard handler accepts the user password and the owner
    password (if none was given, the random one), recovers the padded user
    password from the owner password, sees the permissions asked for, and
    computes the key with which the streams were encrypted (C33) *)
Theorem C34_passwords :
  forall (E : env) (d : doc (e_num E)) (pre : bytes) (rnd flag : Z) (user owner : bytes),
    well_formed d -> finished d pre -> zlength (file_of d pre) < 10 ^ 10 ->
    d_protect d = Some (set_protection (e_md5 E) rnd flag user owner) ->
    exists k body O U P a b,
      trailer_in (file_of d pre) (a +++ bs "/Encrypt " +++ dec k +++ bs " 0 R" +++ eol +++ bs "/ID [()()]" +++ eol +++ b) /\
      object_in (file_of d pre) k body /\ encryption_dict body O U P /\
      user_accepted (e_md5 E) user O U P [] /\
      (let owner' := match owner with [] => le_bytes 8 rnd | _ => owner end in
       owner_recovers (e_md5 E) owner' O = padded user /\ owner_accepted (e_md5 E) owner' O U P []) /\
      permissions P (Z.testbit flag 2) (Z.testbit flag 3) (Z.testbit flag 4) (Z.testbit flag 5) /\
      (forall k data, stored d k data = std_crypt (e_md5 E) (Some (file_key (e_md5 E) user O P [])) k data).
Proof.
  intros E d pre rnd flag user owner W F S Hp.
  destruct (password_data (e_md5 E) rnd flag user owner) as (K & UA & OA & PM).
  revert Hp K UA OA PM. generalize (set_protection (e_md5 E) rnd flag user owner). intros pr Hp K UA OA PM.
  destruct (encryption_in_file E d pre pr W F S Hp) as (k & body & a & b & T & B & D).
  exists k, body, (pr_o pr), (pr_u pr), (pr_p pr), a, b. split; [exact T|]. split; [exact B|]. split; [exact D|].
  split; [exact UA|]. split; [exact OA|]. split; [exact PM|].
  intros k' data. unfold stored. rewrite Hp. cbn [option_map]. now rewrite K.
Qed.
Print Assumptions C34_passwords.

(** non-vacuity: a document protected with passwords "u" and "owner", printing and copying allowed *)
Definition doc_pw : doc Z := doc0 [page0 (bs "first") []] 1 [] [] [] [] (Some (set_protection md5_sum 0 20 (bs "u") (bs "owner"))).
Example C34_ex : well_formed (E := env0) doc_pw /\ finished (E := env0) doc_pw [] /\
  user_accepted md5_sum (bs "u") (pr_o (set_protection md5_sum 0 20 (bs "u") (bs "owner"))) (pr_u (set_protection md5_sum 0 20 (bs "u") (bs "owner"))) (-44) [] /\
  ~ user_accepted md5_sum (bs "v") (pr_o (set_protection md5_sum 0 20 (bs "u") (bs "owner"))) (pr_u (set_protection md5_sum 0 20 (bs "u") (bs "owner"))) (-44) [].
Proof. split; [apply doc0_wf|]. split; [split; vm_compute; reflexivity|]. split; [vm_compute; reflexivity|]. vm_compute. discriminate. Qed.
