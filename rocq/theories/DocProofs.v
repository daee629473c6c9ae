(** Proof machinery for document assembly: what each writing function does to
    the file, the object numbers and the offset table. *)
From Verif Require Import Base TextModel Crypto DocModel.
From Coq Require Import String.
Open Scope Z_scope.
Notation length := List.length.
Local Notation "a +++ b" := (List.app a b) (at level 60, right associativity, only parsing).

Definition ok (w : wst) : Prop := w_err w = false /\ w_panic w = false.

(** an object: its number and what follows the line "k 0 obj" *)
Definition objtext (o : Z * bytes) : bytes := dec (fst o) +++ bs " 0 obj" +++ nl +++ snd o.
Definition obj (k : Z) (body : bytes) : Z * bytes := (k, body +++ bs "endobj" +++ nl).
(** closed by endobj, then at most blank lines *)
Definition closed (o : Z * bytes) : Prop :=
  exists body ws, snd o = body +++ bs "endobj" +++ nl +++ ws /\ Forall (fun c => c = 10) ws.
Lemma closed_obj k body : closed (obj k body).
Proof. exists body, []. split; [now rewrite app_nil_r|constructor]. Qed.
Definition render (os : list (Z * bytes)) : bytes := List.concat (map objtext os).

Lemma render_app a b : render (a +++ b) = render a +++ render b.
Proof. unfold render. now rewrite map_app, concat_app. Qed.

Lemma zlen_app {A} (a b : list A) : zlen (a +++ b) = zlen a + zlen b.
Proof. unfold zlen. rewrite app_length. lia. Qed.
Lemma zlen_nonneg {A} (a : list A) : 0 <= zlen a. Proof. unfold zlen. lia. Qed.
Lemma zlen_cons {A} (x : A) l : zlen (x :: l) = 1 + zlen l. Proof. unfold zlen. cbn [length]. lia. Qed.
Lemma zlen_nil {A} : zlen (@nil A) = 0. Proof. reflexivity. Qed.

Definition lenok (w : wst) : Prop := (w_offs w = [] /\ w_n w = 2) \/ zlen (w_offs w) = w_n w + 1.
Definition cipok (w : wst) : Prop := forall m st, w_cip w = Some (m, st) -> m <= w_n w.
Definition fresh (w : wst) : Prop := forall m st, w_cip w = Some (m, st) -> m < w_n w.
Definition newtab (w w' : wst) : Prop :=
  exists ts, w_tab w' = ts +++ w_tab w /\ Forall (fun e => 2 < snd e <= w_n w') ts.

(** [writes w w' s]: inside an object, w' is w with s printed *)
Record writes (w w' : wst) (s : bytes) : Prop := {
  wr_ok : ok w' -> ok w;
  wr_buf : w_buf w' = w_buf w +++ s;
  wr_n : w_n w' = w_n w;
  wr_offs : w_offs w' = w_offs w;
  wr_tab : 2 < w_n w -> newtab w w';
  wr_cip : cipok w -> cipok w' }.

Lemma writes_refl w : writes w w [].
Proof. constructor; auto. - now rewrite app_nil_r. - intros _. exists []. now split. Qed.

Lemma writes_trans w1 w2 w3 a b : writes w1 w2 a -> writes w2 w3 b -> writes w1 w3 (a +++ b).
Proof.
  intros [] []. constructor; auto; try congruence.
  - rewrite wr_buf1, wr_buf0. now rewrite app_assoc.
  - intros Hn. destruct (wr_tab0 Hn) as (t1 & E1 & F1). destruct wr_tab1 as (t2 & E2 & F2); [lia|].
    exists (t2 +++ t1). split; [rewrite E2, E1; now rewrite app_assoc|].
    apply Forall_app. split; auto. eapply Forall_impl; [|exact F1]. cbn. intros. lia.
Qed.

Lemma writes_out s w : writes w (out s w) (s +++ nl).
Proof. constructor; auto. intros _. exists []. now split. Qed.
Lemma writes_save sl w : writes w (save sl w) [].
Proof.
  constructor; auto. - cbn. now rewrite app_nil_r.
  - intros H. exists [(sl, w_n w)]. split; [reflexivity|]. constructor; [cbn; lia|constructor].
Qed.
Lemma writes_panic w s : writes w (panic (set_buf (w_buf w +++ s) w)) s.
Proof. constructor; auto. - intros [_ H]. discriminate. - intros _. exists []. now split. Qed.
Lemma writes_panic0 w : writes w (panic w) [].
Proof. constructor; auto. - intros [_ H]. discriminate. - cbn. now rewrite app_nil_r. - intros _. exists []. now split. Qed.
Lemma writes_err0 w : writes w (set_err w) [].
Proof. constructor; auto. - intros [H _]. discriminate. - cbn. now rewrite app_nil_r. - intros _. exists []. now split. Qed.

Lemma writes_snoc w w' s t : writes w w' s -> writes w (out t w') (s +++ t +++ nl).
Proof. intros H. eapply writes_trans; [exact H|apply writes_out]. Qed.

(** existential versions; [grow] may advance the cipher, [pgrow] does not *)
Definition grow (w w' : wst) : Prop := exists s, writes w w' s.
Definition pgrow (w w' : wst) : Prop := exists s, writes w w' s /\ w_cip w' = w_cip w.

Lemma grow_refl w : grow w w. Proof. exists []. apply writes_refl. Qed.
Lemma grow_trans w1 w2 w3 : grow w1 w2 -> grow w2 w3 -> grow w1 w3.
Proof. intros [a Ha] [b Hb]. exists (a +++ b). eapply writes_trans; eauto. Qed.
Lemma grow_out s w w' : grow w w' -> grow w (out s w').
Proof. intros H. eapply grow_trans; [exact H|]. eexists. apply writes_out. Qed.
Lemma grow_save s w w' : grow w w' -> grow w (save s w').
Proof. intros H. eapply grow_trans; [exact H|]. eexists. apply writes_save. Qed.
Lemma grow_panic w w' : grow w w' -> grow w (panic w').
Proof. intros H. eapply grow_trans; [exact H|]. eexists. apply writes_panic0. Qed.
Lemma pgrow_refl w : pgrow w w. Proof. exists []. split; [apply writes_refl|reflexivity]. Qed.
Lemma pgrow_trans w1 w2 w3 : pgrow w1 w2 -> pgrow w2 w3 -> pgrow w1 w3.
Proof. intros (a & Ha & Ca) (b & Hb & Cb). exists (a +++ b). split; [eapply writes_trans; eauto|congruence]. Qed.
Lemma pgrow_out s w w' : pgrow w w' -> pgrow w (out s w').
Proof. intros H. eapply pgrow_trans; [exact H|]. eexists. split; [apply writes_out|reflexivity]. Qed.
Lemma pgrow_save s w w' : pgrow w w' -> pgrow w (save s w').
Proof. intros H. eapply pgrow_trans; [exact H|]. eexists. split; [apply writes_save|reflexivity]. Qed.
Lemma pgrow_panic w w' : pgrow w w' -> pgrow w (panic w').
Proof. intros H. eapply pgrow_trans; [exact H|]. eexists. split; [apply writes_panic0|reflexivity]. Qed.
Lemma pgrow_grow w w' : pgrow w w' -> grow w w'.
Proof. intros (s & H & _). now exists s. Qed.
Lemma pgrow_fold {A} (f : wst -> A -> wst) l w w' :
  (forall x v, pgrow v (f v x)) -> pgrow w w' -> pgrow w (fold_left f l w').
Proof.
  intros Hf. revert w'. induction l as [|x l IH]; intros w' H; [exact H|]. cbn. apply IH.
  eapply pgrow_trans; [exact H|apply Hf].
Qed.
Lemma grow_fold {A} (f : wst -> A -> wst) l w w' :
  (forall x v, grow v (f v x)) -> grow w w' -> grow w (fold_left f l w').
Proof.
  intros Hf. revert w'. induction l as [|x l IH]; intros w' H; [exact H|]. cbn. apply IH.
  eapply grow_trans; [exact H|apply Hf].
Qed.
Lemma pgrow_iteri {A} (f : Z -> A -> wst -> wst) l j w w' :
  (forall j x v, pgrow v (f j x v)) -> pgrow w w' -> pgrow w (iteri f j l w').
Proof.
  intros Hf. revert j w'. induction l as [|x l IH]; intros j w' H; [exact H|]. cbn. apply IH.
  eapply pgrow_trans; [exact H|apply Hf].
Qed.

(** ** Whole objects *)
Fixpoint nums (k : Z) (m : nat) : list Z :=
  match m with O => [] | S m' => k :: nums (k + 1) m' end.
Lemma nums_app k a b : nums k (a + b) = nums k a +++ nums (k + Z.of_nat a) b.
Proof.
  revert k. induction a as [|a IH]; intros k; [cbn; f_equal; lia|].
  cbn [Nat.add nums app]. f_equal. rewrite IH. do 2 f_equal. lia.
Qed.
Lemma nums_length k m : length (nums k m) = m.
Proof. revert k; induction m; intros; cbn; auto. Qed.
Lemma in_nums x k m : In x (nums k m) <-> k <= x < k + Z.of_nat m.
Proof.
  revert k. induction m as [|m IH]; intros k; cbn [nums In]; [lia|]. rewrite IH. lia.
Qed.
Lemma nums_nodup k m : NoDup (nums k m).
Proof.
  revert k. induction m as [|m IH]; intros k; cbn; constructor; auto. rewrite in_nums. lia.
Qed.

Record adds (w w' : wst) (os : list (Z * bytes)) : Prop := {
  ad_ok : ok w' -> ok w;
  ad_n : w_n w' = w_n w + zlen os;
  ad_nums : map fst os = nums (w_n w + 1) (length os);
  ad_buf : w_buf w' = w_buf w +++ render os;
  ad_closed : Forall closed os;
  ad_tab : ok w' -> 2 <= w_n w -> newtab w w';
  ad_cip : cipok w -> cipok w';
  ad_len : 2 <= w_n w -> lenok w -> lenok w';
  ad_old : 2 <= w_n w -> lenok w -> forall k v, k <= w_n w -> at_ (w_offs w) k = Some v -> at_ (w_offs w') k = Some v;
  ad_new : 2 <= w_n w -> lenok w -> forall a o c, os = a +++ o :: c ->
           at_ (w_offs w') (fst o) = Some (zlen (w_buf w +++ render a)) }.

Lemma adds_refl w : adds w w [].
Proof.
  constructor; auto.
  - rewrite zlen_nil. lia.
  - cbn. now rewrite app_nil_r.
  - intros _ _. exists []. now split.
  - intros _ _ [|? ?] ? ? H; discriminate.
Qed.

Lemma split_cases {A} (x y : list A) a o c :
  x +++ y = a +++ o :: c ->
  (exists c', x = a +++ o :: c' /\ c = c' +++ y) \/ (exists a', a = x +++ a' /\ y = a' +++ o :: c).
Proof.
  revert a. induction x as [|h x IH]; intros a H.
  - right. now exists a.
  - destruct a as [|h' a].
    + injection H as -> <-. left. now exists x.
    + injection H as -> H. destruct (IH _ H) as [(c' & -> & ->)|(a' & -> & ->)].
      * left. now exists c'.
      * right. now exists a'.
Qed.

Lemma adds_in_nums w w' os o : adds w w' os -> In o os -> w_n w < fst o <= w_n w'.
Proof.
  intros [] Hin. apply (in_map fst) in Hin. rewrite ad_nums0 in Hin. apply in_nums in Hin.
  rewrite ad_n0. unfold zlen. lia.
Qed.

Lemma adds_trans w1 w2 w3 a b : adds w1 w2 a -> adds w2 w3 b -> adds w1 w3 (a +++ b).
Proof.
  intros Ha Hb. pose proof Ha as Ha'. destruct Ha, Hb. constructor; auto.
  - rewrite zlen_app. lia.
  - rewrite map_app, app_length, nums_app, ad_nums0, ad_nums1. do 2 f_equal. unfold zlen in *. lia.
  - rewrite ad_buf1, ad_buf0, render_app. now rewrite app_assoc.
  - apply Forall_app. now split.
  - intros Hok Hn. pose proof (zlen_nonneg a). pose proof (zlen_nonneg b).
    destruct (ad_tab0 (ad_ok1 Hok) Hn) as (t1 & E1 & F1). destruct ad_tab1 as (t2 & E2 & F2); [exact Hok|lia|].
    exists (t2 +++ t1). split; [rewrite E2, E1; now rewrite app_assoc|].
    apply Forall_app. split; auto. eapply Forall_impl; [|exact F1]. cbn. intros. lia.
  - intros H2 Hl. pose proof (zlen_nonneg a). apply ad_len1; auto. lia.
  - intros H2 Hl k v Hk Hv. pose proof (zlen_nonneg a). apply ad_old1; auto; try lia.
  - intros H2 Hl l o c E. pose proof (zlen_nonneg a). apply split_cases in E as [(c' & -> & ->)|(a' & -> & ->)].
    + apply ad_old1; auto; try lia.
      * destruct (adds_in_nums _ _ _ o Ha') as [_ ?]; [apply in_or_app; right; now left|lia].
      * eapply ad_new0; auto.
    + rewrite render_app, app_assoc, <- ad_buf0. eapply ad_new1; auto. lia.
Qed.

Lemma at_repeat_app l k (v : Z) m : at_ l k = Some v -> at_ (l +++ repeat 0 m) k = Some v.
Proof.
  unfold at_. destruct (k <? 0); [easy|]. intros H. rewrite nth_error_app1; auto.
  apply nth_error_Some. congruence.
Qed.
Lemma set_nth_length {A} k (v : A) l : length (set_nth k v l) = length l.
Proof. revert k; induction l as [|x l IH]; intros [|k]; cbn; auto. Qed.
Lemma nth_set_nth_same {A} k (v : A) l : (k < length l)%nat -> nth_error (set_nth k v l) k = Some v.
Proof. revert k; induction l as [|x l IH]; intros [|k] H; cbn in *; try lia; auto. apply IH. lia. Qed.
Lemma nth_set_nth_other {A} k j (v : A) l : k <> j -> nth_error (set_nth k v l) j = nth_error l j.
Proof. revert k j; induction l as [|x l IH]; intros [|k] [|j] H; cbn; auto; try lia. Qed.

Lemma newobj_spec w :
  2 <= w_n w -> lenok w ->
  zlen (w_offs (newobj w)) = w_n w + 2 /\
  at_ (w_offs (newobj w)) (w_n w + 1) = Some (zlen (w_buf w)) /\
  w_panic (newobj w) = w_panic w /\
  (forall k v, k <= w_n w -> at_ (w_offs w) k = Some v -> at_ (w_offs (newobj w)) k = Some v).
Proof.
  intros Hn Hl. unfold newobj, set_off. cbn [w_offs set_n set_offs w_buf w_n].
  assert (E : zlen (w_offs w +++ repeat 0 (Z.to_nat (w_n w + 1 + 1 - zlen (w_offs w)))) = w_n w + 2).
  { rewrite zlen_app. unfold zlen at 2. rewrite repeat_length. pose proof (zlen_nonneg (w_offs w)) as Hz.
    destruct Hl as [[-> Hx]|Hx]; [cbn in Hz |- *; lia|]. lia. }
  rewrite E. replace ((0 <=? w_n w + 1) && (w_n w + 1 <? w_n w + 2)) with true by lia.
  cbn [w_offs out set_buf set_offs w_panic]. unfold zlen in E |- *. rewrite set_nth_length.
  split; [exact E|]. split; [|split].
  - unfold at_. replace (w_n w + 1 <? 0) with false by lia. apply nth_set_nth_same. lia.
  - reflexivity.
  - intros k v Hk Hv. unfold at_ in *. destruct (k <? 0) eqn:E0; [easy|].
    rewrite nth_set_nth_other by lia. rewrite nth_error_app1; auto. apply nth_error_Some. congruence.
Qed.

Lemma newobj_n w : w_n (newobj w) = w_n w + 1.
Proof. unfold newobj, set_off. destruct (_ && _); reflexivity. Qed.
Lemma newobj_buf w : w_buf (newobj w) = w_buf w +++ dec (w_n w + 1) +++ bs " 0 obj" +++ nl.
Proof. unfold newobj, set_off. destruct (_ && _); cbn [w_buf out set_buf panic set_offs set_n w_n]; now rewrite <- ?app_assoc. Qed.
Lemma newobj_tab w : w_tab (newobj w) = w_tab w.
Proof. unfold newobj, set_off. destruct (_ && _); reflexivity. Qed.
Lemma newobj_cip w : w_cip (newobj w) = w_cip w.
Proof. unfold newobj, set_off. destruct (_ && _); reflexivity. Qed.
Lemma newobj_ok w : ok (newobj w) -> ok w.
Proof. unfold newobj, set_off, ok. destruct (_ && _); cbn; intuition congruence. Qed.
Lemma newobj_err w : w_err (newobj w) = w_err w.
Proof. unfold newobj, set_off. destruct (_ && _); reflexivity. Qed.
Lemma newobj_fresh w : cipok w -> fresh (newobj w).
Proof. intros H m st. rewrite newobj_cip, newobj_n. intros E. apply H in E. lia. Qed.

Lemma adds_obj w w2 body :
  writes (newobj w) w2 body -> adds w (out (bs "endobj") w2) [obj (w_n w + 1) body].
Proof.
  intros []. constructor.
  - intros H. apply newobj_ok. apply wr_ok0. exact H.
  - cbn. rewrite wr_n0, newobj_n. lia.
  - reflexivity.
  - cbn [w_buf out set_buf]. rewrite wr_buf0, newobj_buf. unfold render, objtext. cbn [map List.concat fst snd].
    cbn [fst snd obj]. rewrite ?app_nil_r, <- ?app_assoc. reflexivity.
  - constructor; [apply closed_obj|constructor].
  - intros _ Hn. destruct wr_tab0 as (ts & E & F); [rewrite newobj_n; lia|].
    exists ts. split; [|exact F]. cbn [w_tab out set_buf]. rewrite E. f_equal. apply newobj_tab.
  - intros Hc. intros m st E. apply wr_cip0 in E; [exact E|]. intros m' st'. rewrite newobj_cip, newobj_n.
    intros E'. apply Hc in E'. lia.
  - intros Hn Hl. right. cbn [w_offs out set_buf w_n]. rewrite wr_offs0, wr_n0, newobj_n.
    destruct (newobj_spec w Hn Hl) as [-> _]. lia.
  - intros Hn Hl k v Hk Hv. cbn [w_offs out set_buf]. rewrite wr_offs0.
    destruct (newobj_spec w Hn Hl) as (_ & _ & _ & H). now apply H.
  - intros Hn Hl a o c E. destruct a as [|? a]; [|destruct a; discriminate]. injection E as <- <-.
    cbn [w_offs out set_buf fst obj]. rewrite wr_offs0.
    destruct (newobj_spec w Hn Hl) as (_ & -> & _). cbn. now rewrite app_nil_r.
Qed.

Lemma adds_save sl w w' os : os <> [] -> adds w w' os -> adds w (save sl w') os.
Proof.
  intros Hne []. constructor; auto.
  intros Hok Hn. destruct (ad_tab0 Hok Hn) as (ts & E & F). exists ((sl, w_n w') :: ts). split.
  - cbn. now rewrite E.
  - constructor; [|exact F]. cbn. destruct os as [|x os]; [easy|]. rewrite zlen_cons in ad_n0. pose proof (zlen_nonneg os). lia.
Qed.

Definition pushes (w w' : wst) : Prop := exists os, adds w w' os.
Lemma pushes_refl w : pushes w w. Proof. exists []. apply adds_refl. Qed.
Lemma pushes_trans a b c : pushes a b -> pushes b c -> pushes a c.
Proof. intros [x Hx] [y Hy]. exists (x +++ y). eapply adds_trans; eauto. Qed.
Lemma pushes_obj w v w2 : pushes w v -> grow (newobj v) w2 -> pushes w (out (bs "endobj") w2).
Proof. intros H [s Hs]. eapply pushes_trans; [exact H|]. eexists. exact (adds_obj _ _ _ Hs). Qed.
Lemma pushes_fold {A} (f : wst -> A -> wst) l w w' :
  (forall x v, pushes v (f v x)) -> pushes w w' -> pushes w (fold_left f l w').
Proof.
  intros Hf. revert w'. induction l as [|x l IH]; intros w' H; [exact H|]. cbn. apply IH.
  eapply pushes_trans; [exact H|apply Hf].
Qed.
Lemma pushes_iteri {A} (f : Z -> A -> wst -> wst) l j w w' :
  (forall j x v, pushes v (f j x v)) -> pushes w w' -> pushes w (iteri f j l w').
Proof.
  intros Hf. revert j w'. induction l as [|x l IH]; intros j w' H; [exact H|]. cbn. apply IH.
  eapply pushes_trans; [exact H|apply Hf].
Qed.

(** error and panic flags only *)
Lemma adds_panic w w' os : adds w w' os -> adds w (panic w') os.
Proof. intros []. constructor; auto; intros [_ H]; discriminate. Qed.
Lemma adds_err w w' os : adds w w' os -> adds w (set_err w') os.
Proof. intros []. constructor; auto; intros [H _]; discriminate. Qed.
Lemma adds_settab sl v w w' os :
  2 < v <= w_n w' -> adds w w' os -> adds w (set_tab ((sl, v) :: w_tab w') w') os.
Proof.
  intros Hv []. constructor; auto.
  intros Hok Hn. destruct (ad_tab0 Hok Hn) as (ts & Et & F). exists ((sl, v) :: ts). split.
  - cbn. now rewrite Et.
  - constructor; [exact Hv|exact F].
Qed.
Lemma adds_pretab ts w w' os :
  (ok w' -> 2 <= w_n w -> Forall (fun e => 2 < snd e <= w_n w') ts) -> adds (set_tab (ts +++ w_tab w) w) w' os -> adds w w' os.
Proof.
  intros Hts []. constructor; auto.
  intros Hok Hn. destruct (ad_tab0 Hok Hn) as (t' & Et & F). exists (t' +++ ts). split.
  - rewrite Et. cbn. now rewrite app_assoc.
  - apply Forall_app. split; [exact F|now apply Hts].
Qed.

(** loops that write objects, with what can be said of each item *)
Lemma adds_fold {A} (f : wst -> A -> wst) (P : A -> list (Z * bytes) -> Prop) l w :
  (forall x a b c, P x b -> P x (a +++ b +++ c)) ->
  (forall x v, In x l -> cipok v -> exists os, adds v (f v x) os /\ (ok (f v x) -> P x os)) ->
  cipok w ->
  exists os, adds w (fold_left f l w) os /\ (ok (fold_left f l w) -> forall x, In x l -> P x os).
Proof.
  intros Hmono. revert w. induction l as [|x l IH]; intros w Hf Hc.
  - exists []. split; [apply adds_refl|easy].
  - cbn. destruct (Hf x w (or_introl eq_refl) Hc) as (o1 & A1 & P1).
    destruct (IH (f w x)) as (o2 & A2 & P2).
    + intros. apply Hf; auto. now right.
    + apply (ad_cip _ _ _ A1 Hc).
    + exists (o1 +++ o2). split; [eapply adds_trans; eauto|]. intros Hok y [<-|Hy].
      * change o1 with ([] +++ o1) at 1. rewrite <- app_assoc. apply (Hmono x [] o1 o2). apply P1.
        apply (ad_ok _ _ _ A2 Hok).
      * rewrite <- (app_nil_r o2). apply (Hmono y o1 o2 []). now apply P2.
Qed.
Lemma adds_iteri {A} (f : Z -> A -> wst -> wst) l j w :
  (forall j x v, exists os, adds v (f j x v) os) ->
  exists os, adds w (iteri f j l w) os.
Proof. intros H. apply pushes_iteri; [|apply pushes_refl]. intros. apply H. Qed.
Lemma adds_fold_ok {A} (f : wst -> A -> wst) (P : A -> list (Z * bytes) -> Prop) l w :
  (forall x a b c, P x b -> P x (a +++ b +++ c)) ->
  (forall x v, ok (f v x) -> ok v) ->
  (forall x v, In x l -> cipok v -> ok (f v x) -> exists os, adds v (f v x) os /\ P x os) ->
  cipok w -> ok (fold_left f l w) ->
  exists os, adds w (fold_left f l w) os /\ forall x, In x l -> P x os.
Proof.
  intros Hmono Hok. revert w. induction l as [|x l IH]; intros w Hf Hc Hfin.
  - exists []. split; [apply adds_refl|easy].
  - cbn in Hfin |- *.
    assert (Ho : ok (f w x)).
    { clear -Hok Hfin. revert Hfin. generalize (f w x). induction l as [|y l IH]; intros v H; [exact H|]. cbn in H. apply (Hok y). now apply IH. }
    destruct (Hf x w (or_introl eq_refl) Hc Ho) as (o1 & A1 & P1).
    destruct (IH (f w x)) as (o2 & A2 & P2); auto.
    + intros. apply Hf; auto. now right.
    + apply (ad_cip _ _ _ A1 Hc).
    + exists (o1 +++ o2). split; [eapply adds_trans; eauto|]. intros y [<-|Hy].
      * exact (Hmono x [] o1 o2 P1).
      * rewrite <- (app_nil_r o2). apply (Hmono y o1 o2 []). now apply P2.
Qed.
Lemma ok_fold {A} (f : wst -> A -> wst) l w :
  (forall x v, ok (f v x) -> ok v) -> ok (fold_left f l w) -> ok w.
Proof. intros H. revert w. induction l as [|x l IH]; intros w; [auto|]. cbn. eauto. Qed.

Lemma n_out s w : w_n (out s w) = w_n w. Proof. reflexivity. Qed.
Lemma n_panic w : w_n (panic w) = w_n w. Proof. reflexivity. Qed.
Lemma n_save sl w : w_n (save sl w) = w_n w. Proof. reflexivity. Qed.
Lemma p_out s w : w_panic (out s w) = w_panic w. Proof. reflexivity. Qed.
Lemma tab_out s w : w_tab (out s w) = w_tab w. Proof. reflexivity. Qed.
Lemma ok_out s w : ok (out s w) -> ok w. Proof. intros H; exact H. Qed.
Lemma ok_save s w : ok (save s w) -> ok w. Proof. intros H; exact H. Qed.
Lemma ok_settab s w : ok (set_tab s w) -> ok w. Proof. intros H; exact H. Qed.
Lemma ok_panic w : ok (panic w) -> False. Proof. intros [_ H]; discriminate. Qed.
Lemma ok_seterr w : ok (set_err w) -> False. Proof. intros [H _]; discriminate. Qed.
