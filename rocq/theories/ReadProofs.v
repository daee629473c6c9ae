(** C90: the reader of ReadSpec on the parts of a file *)
From Verif Require Import Base TextModel TextSpec TextProofs Crypto DocModel DocSpec DocSort DocProofs DocWalk PageSpec DocPage DocParts ReadSpec.
From Coq Require Import String.
Open Scope Z_scope.
Notation length := List.length.
Local Notation "a +++ b" := (List.app a b) (at level 60, right associativity, only parsing).

(** ** Passing over text *)
Fixpoint mism (key s : bytes) : bool :=
  match key, s with x :: k, y :: t => if x =? y then mism k t else true | _, _ => false end.
Lemma mism_prefix key s r : mism key s = true -> prefixb key (s +++ r) = false.
Proof.
  revert s. induction key as [|x k IH]; intros [|y s] H; try discriminate. cbn in *. destruct (x =? y); [now apply IH|reflexivity].
Qed.
(** where [seek] stands after [s], if it finds no key in it *)
Fixpoint scan (key : bytes) (nest str : nat) (esc : bool) (s : bytes) : option (nat * nat * bool) :=
  match s with
  | [] => Some (nest, str, esc)
  | c :: t =>
      match str with
      | S str' =>
          if esc then scan key nest str false t
          else if c =? 92 then scan key nest str true t
          else if c =? 40 then scan key nest (S str) false t
          else if c =? 41 then scan key nest str' false t
          else scan key nest str false t
      | O =>
          if (nest =? 2)%nat && negb (mism key s) then None
          else if c =? 40 then scan key nest 1 false t
          else if (c =? 60) || (c =? 91) then scan key (S nest) 0 false t
          else if (c =? 62) || (c =? 93) then match nest with S (S n) => scan key (S n) 0 false t | _ => None end
          else scan key nest 0 false t
      end
  end.
Lemma seek_scan key s : forall nest str esc n2 s2 e2 r, scan key nest str esc s = Some (n2, s2, e2) ->
  seek key nest str esc (s +++ r) = seek key n2 s2 e2 r.
Proof.
  induction s as [|c s IH]; intros nest str esc n2 s2 e2 r H; [now injection H as <- <- <-|].
  cbn [scan] in H. rewrite <- app_comm_cons. cbn [seek]. destruct str.
  - destruct ((nest =? 2)%nat && negb (mism key (c :: s))) eqn:E; [discriminate|].
    replace ((nest =? 2)%nat && prefixb key (c :: s +++ r)) with false.
    2:{ symmetry. destruct (nest =? 2)%nat; [|reflexivity]. cbn [andb] in *. apply negb_false_iff in E. exact (mism_prefix key (c :: s) r E). }
    destruct (c =? 40); [now apply IH|]. destruct ((c =? 60) || (c =? 91)); [now apply IH|].
    destruct ((c =? 62) || (c =? 93)); [|now apply IH]. destruct nest as [|[|n]]; try discriminate H. now apply IH.
  - destruct esc; [now apply IH|]. destruct (c =? 92); [now apply IH|]. destruct (c =? 40); [now apply IH|]. destruct (c =? 41); now apply IH.
Qed.
Lemma seek_lit key s nest n2 r : scan key nest 0 false s = Some (n2, 0%nat, false) -> seek key nest 0 false (s +++ r) = seek key n2 0 false r.
Proof. apply seek_scan. Qed.
Lemma seek_free key nest s r : no_delimiter s -> hd 0 key = 47 -> seek key nest 0 false (s +++ r) = seek key nest 0 false r.
Proof.
  intros F K. induction F as [|c s H F IH]; [reflexivity|]. rewrite <- app_comm_cons. cbn [seek].
  assert (N : forall x, In x (bs "()<>[]/") -> c =? x = false) by (intros x Hx; apply Z.eqb_neq; intros ->; contradiction).
  replace ((nest =? 2)%nat && prefixb key (c :: s +++ r)) with false.
  2:{ symmetry. apply andb_false_iff. right. destruct key as [|k key]; [discriminate K|]. cbn in K. subst k. cbn [prefixb].
      rewrite Z.eqb_sym, N; [reflexivity|]. cbv. tauto. }
  rewrite !N by (cbv; tauto). exact IH.
Qed.
(** strings *)
Lemma seek_plain_char key nest n b t : b <> 92 -> b <> 40 -> b <> 41 -> seek key nest (S n) false (b :: t) = seek key nest (S n) false t.
Proof. intros H1 H2 H3. cbn [seek]. now rewrite (proj2 (Z.eqb_neq _ _) H1), (proj2 (Z.eqb_neq _ _) H2), (proj2 (Z.eqb_neq _ _) H3). Qed.
Lemma seek_escape key nest n e t : seek key nest (S n) false (92 :: e :: t) = seek key nest (S n) false t.
Proof. reflexivity. Qed.
Lemma octal_plain e : is_octal e = true -> e <> 92 /\ e <> 40 /\ e <> 41.
Proof. unfold is_octal. lia. Qed.
Lemma seek_literal key nest n : forall s depth c rest, (length s <= n)%nat -> read_literal depth s = Some (c, rest) ->
  seek key nest (S depth) false s = seek key nest 0 false rest.
Proof.
  induction n as [|n IH]; intros s depth c rest Hl H; [destruct s; [discriminate H|cbn in Hl; lia]|].
  assert (G : forall x o, cons_res x o = Some (c, rest) -> exists c', o = Some (c', rest)).
  { intros x [[c' r]|] X; [|discriminate X]. cbn in X. injection X as _ <-. eauto. }
  assert (R : forall x t dp, (length t <= n)%nat -> cons_res x (read_literal dp t) = Some (c, rest) -> seek key nest (S dp) false t = seek key nest 0 false rest).
  { intros x t dp Ht X. apply G in X as (c' & X). eapply IH; eauto. }
  destruct s as [|b s]; [discriminate H|]. cbn [length] in Hl. cbn [read_literal] in H.
  destruct (b =? 92) eqn:E92.
  - apply Z.eqb_eq in E92. subst b. destruct s as [|e t2]; [discriminate H|]. cbn [length] in Hl. rewrite seek_escape.
    repeat match type of H with (if ?x =? ?v then cons_res _ _ else _) = _ => destruct (x =? v); [eapply R; [|exact H]; lia|] end.
    destruct (e =? 13).
    { destruct t2 as [|l t3]; [discriminate H|]. cbn [length] in Hl. destruct (l =? 10) eqn:E; [|eapply IH; [|exact H]; cbn [length]; lia].
      apply Z.eqb_eq in E. subst l. rewrite seek_plain_char by lia. eapply IH; [|exact H]. lia. }
    destruct (e =? 10); [eapply IH; [|exact H]; lia|].
    destruct (is_octal e); [|eapply R; [|exact H]; lia].
    destruct t2 as [|e2 t3]; [discriminate H|]. cbn [length] in Hl. destruct (is_octal e2) eqn:O2; [|eapply R; [|exact H]; cbn [length]; lia].
    destruct t3 as [|e3 t4]; [discriminate H|]. cbn [length] in Hl. apply octal_plain in O2 as (? & ? & ?). rewrite seek_plain_char by assumption.
    destruct (is_octal e3) eqn:O3; [|eapply R; [|exact H]; cbn [length]; lia].
    apply octal_plain in O3 as (? & ? & ?). rewrite seek_plain_char by assumption. eapply R; [|exact H]. lia.
  - apply Z.eqb_neq in E92. destruct (b =? 40) eqn:E40.
    { apply Z.eqb_eq in E40. subst b. cbn [seek]. eapply R; [|exact H]. lia. }
    destruct (b =? 41) eqn:E41.
    { apply Z.eqb_eq in E41. subst b. destruct depth as [|dp].
      - injection H as _ <-. cbn [seek]. reflexivity.
      - change (seek key nest (S (S dp)) false (41 :: s)) with (seek key nest (S dp) false s). eapply R; [|exact H]. lia. }
    apply Z.eqb_neq in E40. apply Z.eqb_neq in E41. rewrite seek_plain_char by assumption.
    destruct (b =? 13); [|eapply R; [|exact H]; lia].
    destruct s as [|l t2]; [discriminate H|]. cbn [length] in Hl. destruct (l =? 10) eqn:E; [|eapply R; [|exact H]; cbn [length]; lia].
    apply Z.eqb_eq in E. subst l. rewrite seek_plain_char by lia. eapply R; [|exact H]. lia.
Qed.
Lemma seek_string key nest t r c : nest <> 2%nat -> read_string (t +++ r) = Some (c, r) -> seek key nest 0 false (t +++ r) = seek key nest 0 false r.
Proof.
  intros Hn H. unfold read_string in H. destruct (t +++ r) as [|b s]; [discriminate H|]. destruct (b =? 40) eqn:E; [|discriminate H].
  cbn [seek]. replace (nest =? 2)%nat with false by (symmetry; now apply Nat.eqb_neq). cbn [andb]. rewrite E. eapply seek_literal; [apply Nat.le_refl|exact H].
Qed.

Lemma no_delimiter_dec k : no_delimiter (dec k).
Proof.
  apply Forall_forall. intros c Hc Hd.
  assert (X : is_digit c = true \/ c = 45).
  { unfold dec in Hc. destruct (k <? 0); [destruct Hc as [<-|Hc]; [now right|]|]; left; exact (proj1 (Forall_forall _ _) (DocWalk.dec_nat_digits _) c Hc). }
  cbv in Hd. unfold is_digit in X. lia.
Qed.
Lemma no_delimiter_app a b : no_delimiter a -> no_delimiter b -> no_delimiter (a +++ b).
Proof. intros. now apply Forall_app. Qed.

(** step over the next piece of text *)
Ltac sk1 := rewrite <- ?app_assoc;
  match goal with |- context [seek ?key ?n 0 false (?a +++ ?s)] => first
    [ let r := eval vm_compute in (scan key n 0 false a) in
      match r with Some (?m, O, false) => rewrite (seek_lit key a n m s) by reflexivity end
    | rewrite (seek_free key n a s) by first
        [ assumption | apply no_delimiter_dec | match goal with H : forall x, no_delimiter (e_fmt2 _ x) |- _ => apply H end | reflexivity ] ] end.
Ltac sk := repeat sk1.

(** ** The pieces of a page object *)
Section Page.
  Context {E : env} (d : doc (e_num E)) (filespec : Z -> Z).
  Hypothesis fmt_free : forall x, no_delimiter (e_fmt2 E x).
  Notation K := (bs "/Contents ").

  Lemma seek_link lk t r : link_annotation d lk t -> seek K 3 0 false (t +++ r) = seek K 3 0 false r.
  Proof.
    intros (a & -> & H0 & H1). unfold rect. sk. destruct (Z.eq_dec (lk_link lk) 0) as [E0|E0].
    - destruct (H0 E0) as (u & (c & Hu & _) & ->). sk. rewrite (seek_string _ _ u _ c) by (try discriminate; apply Hu). now sk.
    - destruct (H1 E0) as (p & y & _ & ->). sk. reflexivity.
  Qed.
  Lemma seek_file an t r : file_annotation d filespec an t -> seek K 3 0 false (t +++ r) = seek K 3 0 false r.
  Proof.
    intros (a & desc & name & d16 & n16 & _ & _ & _ & (c1 & H1 & _) & (c2 & H2 & _) & ->). unfold rect, appearance, rect. sk.
    rewrite (seek_string _ _ desc _ c1) by (try discriminate; apply H1). sk.
    rewrite (seek_string _ _ name _ c2) by (try discriminate; apply H2). now sk.
  Qed.
  Lemma seek_all {A} (P : A -> bytes -> Prop) l ts r : (forall x t r, P x t -> seek K 3 0 false (t +++ r) = seek K 3 0 false r) -> Forall2 P l ts ->
    seek K 3 0 false (List.concat ts +++ r) = seek K 3 0 false r.
  Proof. intros H F. induction F as [|x t l ts Hx F IH]; [reflexivity|]. cbn [List.concat]. rewrite <- app_assoc, (H x) by exact Hx. exact IH. Qed.
  Lemma seek_annots pg t r : annotations d filespec pg t -> seek K 2 0 false (t +++ r) = seek K 2 0 false r.
  Proof.
    intros [(_ & _ & ->)|(_ & ls & fs & F1 & F2 & ->)]; [reflexivity|]. unfold PageSpec.line. sk.
    rewrite (seek_all _ _ _ _ seek_link F1), (seek_all _ _ _ _ seek_file F2). now sk.
  Qed.
  Lemma seek_media o r : seek K 2 0 false (media_box (E := E) o +++ r) = seek K 2 0 false r.
  Proof. destruct o as [[w h]|]; [|reflexivity]. unfold media_box, PageSpec.line. now sk. Qed.
  Lemma seek_box b r : In (fst b) box_names -> seek K 2 0 false (page_box (E := E) b +++ r) = seek K 2 0 false r.
  Proof.
    destruct b as [name [[[x y] w] h]]. cbn [fst]. intros H. unfold page_box, PageSpec.line. rewrite <- ?app_assoc.
    rewrite (app_assoc (bs "/") name), (app_assoc (bs "/" +++ name) (bs " [")). unfold box_names in H. cbn [In] in H.
    repeat (destruct H as [<-|H]; [match goal with |- context [(bs "/" +++ ?n) +++ bs " ["] => let a := eval vm_compute in ((bs "/" +++ n) +++ bs " [") in change ((bs "/" +++ n) +++ bs " [") with a end; now sk|]). destruct H.
  Qed.
  Lemma seek_boxes l r : Forall (fun b => In (fst b) box_names) l -> seek K 2 0 false (List.concat (map (@page_box E) l) +++ r) = seek K 2 0 false r.
  Proof. intros F. induction F as [|b l H F IH]; [reflexivity|]. cbn [map List.concat]. rewrite <- app_assoc, seek_box by exact H. exact IH. Qed.
  Lemma entry_contents boxes version pg t c r : Forall (fun b => In (fst b) box_names) boxes -> page_entries d filespec boxes version pg t ->
    entry_of K (bs "<</Type /Page" +++ eol +++ bs "/Parent 1 0 R" +++ eol +++ t +++ bs "/Contents " +++ dec c +++ bs " 0 R>>" +++ eol +++ r) = Some (dec c +++ bs " 0 R>>" +++ eol +++ r).
  Proof.
    intros HB (an & HA & ->). unfold entry_of. rewrite (proj2 (prefixb_spec (bs "<<") _)) by (eexists; reflexivity). unfold PageSpec.line. sk.
    rewrite seek_media. rewrite seek_boxes by exact HB. sk. rewrite (seek_annots _ _ _ HA).
    destruct (bltb (bs "1.3") version); sk; reflexivity.
  Qed.
End Page.

(** ** The other parts of the file *)
Lemma strip_app p s : strip p (p +++ s) = Some s.
Proof. unfold strip. rewrite (proj2 (prefixb_spec p _)) by (eexists; reflexivity). now rewrite skipn_app, skipn_all, Nat.sub_diag. Qed.
Lemma strip2 a b s : strip (a +++ b) (a +++ b +++ s) = Some s.
Proof. rewrite <- (strip_app (a +++ b) s). rewrite <- ?app_assoc. reflexivity. Qed.
Lemma strip3 a b c s : strip (a +++ b +++ c) (a +++ b +++ c +++ s) = Some s.
Proof. rewrite <- (strip_app (a +++ b +++ c) s). rewrite <- ?app_assoc. reflexivity. Qed.
Lemma strip5 a b c e f s : strip (a +++ b +++ c +++ e +++ f) (a +++ b +++ c +++ e +++ f +++ s) = Some s.
Proof. rewrite <- (strip_app (a +++ b +++ c +++ e +++ f) s). rewrite <- ?app_assoc. reflexivity. Qed.
Lemma seek_hit key r : key <> [] -> seek key 2 0 false (key +++ r) = Some r.
Proof.
  intros H. destruct key as [|c k]; [contradiction|]. change ((c :: k) +++ r) with (c :: (k +++ r)). cbn [seek Nat.eqb andb].
  change (c :: (k +++ r)) with ((c :: k) +++ r). rewrite (proj2 (prefixb_spec (c :: k) _)) by (eexists; reflexivity). now rewrite skipn_app, skipn_all, Nat.sub_diag.
Qed.
Lemma entry_of_start key t : entry_of key (bs "<<" +++ t) = seek key 0 0 false (bs "<<" +++ t).
Proof. unfold entry_of. now rewrite (proj2 (prefixb_spec (bs "<<") _)) by (eexists; reflexivity). Qed.

Lemma past_free nest s r : no_delimiter s -> past nest 0 false (s +++ r) = past nest 0 false r.
Proof.
  intros F. induction F as [|c s H F IH]; [reflexivity|]. rewrite <- app_comm_cons. cbn [past].
  assert (N : forall x, In x (bs "()<>[]/") -> c =? x = false) by (intros x Hx; apply Z.eqb_neq; intros ->; contradiction).
  rewrite !N by (cbv; tauto). exact IH.
Qed.

Lemma reference_dec k r : 0 <= k -> reference (dec k +++ bs " 0 R" +++ r) = Some (k, r).
Proof. intros H. unfold reference. rewrite read_dec_dec by (try exact H; reflexivity). cbn [bind snd fst]. rewrite strip_app. reflexivity. Qed.
Lemma references_kids ks r : Forall (fun k => 0 <= k) ks -> forall fuel, (length ks < fuel)%nat ->
  references fuel (List.concat (map (fun k => dec k +++ bs " 0 R ") ks) +++ bs "]" +++ r) = Some ks.
Proof.
  induction ks as [|k ks IH]; intros F fuel H; (destruct fuel as [|fuel]; [cbn in H; lia|]); [reflexivity|].
  inversion F as [|? ? Hk F']; subst. cbn [map List.concat references]. rewrite <- ?app_assoc.
  replace (prefixb (bs "]") _) with false.
  2:{ symmetry. destruct (dec_nat_cons k) as (c & t & E & D). assert (E' : dec k = c :: t) by (unfold dec; replace (k <? 0) with false by lia; exact E).
      rewrite E'. change (bs "]") with [93]. rewrite <- app_comm_cons. cbn [prefixb]. unfold is_digit in D. replace (93 =? c) with false by lia. reflexivity. }
  change (bs " 0 R ") with (bs " 0 R" +++ bs " "). rewrite <- ?app_assoc. rewrite reference_dec by exact Hk. cbn [bind snd fst]. rewrite strip_app. cbn [bind].
  rewrite IH; [reflexivity|exact F'|cbn in H; lia].
Qed.
Lemma concat_refs_length ks : (length ks <= length (List.concat (map (fun k => dec k +++ bs " 0 R ") ks)))%nat.
Proof. induction ks as [|k ks IH]; [apply Nat.le_refl|]. cbn [map List.concat]. rewrite !app_length. change (length (bs " 0 R ")) with 5%nat. cbn [length]. lia. Qed.

Lemma upto_digits ds r : Forall (fun c => c <> 10) ds -> upto_eol (ds +++ 10 :: r) = ds.
Proof. intros F. induction F as [|c ds H F IH]; [reflexivity|]. rewrite <- app_comm_cons. cbn [upto_eol]. rewrite (proj2 (Z.eqb_neq _ _) H). now rewrite IH. Qed.
Lemma dec_no_eol x : Forall (fun c => c <> 10) (dec x).
Proof.
  unfold dec. assert (G : forall n, Forall (fun c => c <> 10) (dec_nat n)).
  { intros n. eapply Forall_impl; [|apply dec_nat_digits]. unfold is_digit. cbn. lia. }
  destruct (x <? 0); [constructor; [lia|apply G]|apply G].
Qed.
Lemma table_offset_of file x : startxref file x -> 0 <= x -> table_offset file = Some x.
Proof.
  intros (a & ->) Hx. unfold table_offset.
  assert (E : rev (a +++ bs "startxref" +++ eol +++ dec x +++ eol +++ bs "%%EOF" +++ eol) =
              rev (eol +++ bs "%%EOF" +++ eol) +++ rev (dec x) +++ rev (bs "startxref" +++ eol) +++ rev a).
  { rewrite !rev_app_distr. rewrite <- ?app_assoc. reflexivity. }
  rewrite E, strip_app. cbn [bind].
  assert (U : upto_eol (rev (dec x) +++ rev (bs "startxref" +++ eol) +++ rev a) = rev (dec x)).
  { change (rev (bs "startxref" +++ eol) +++ rev a) with (10 :: (rev (bs "startxref") +++ rev a)). apply upto_digits. apply Forall_rev, dec_no_eol. }
  rewrite U, rev_involutive. rewrite <- (app_nil_r (dec x)) at 1. rewrite read_dec_dec by (try exact Hx; exact I). cbn [bind fst].
  rewrite skipn_app, skipn_all, Nat.sub_diag. cbn [skipn app]. rewrite strip_app. reflexivity.
Qed.

Lemma object_from_found file table k off body : nth_error table (Z.to_nat k) = Some (InUse off 0) -> found_at file off (object_text k body) ->
  exists r, object_from file table k = Some (body +++ bs "endobj" +++ eol +++ r).
Proof.
  intros H (_ & r & F). exists r. unfold object_from. rewrite H, F. unfold object_text. rewrite <- ?app_assoc.
  apply strip3.
Qed.

Section Stream.
  Context {E : env} (d : doc (e_num E)).
  Variables (inflate : bytes -> option bytes).
  Hypothesis inflate_zlib : forall x, inflate (e_zlib E x) = Some x.

  Lemma past_content pg r : past 0 0 false (content_dict d pg +++ r) = Some (eol +++ r).
  Proof.
    unfold content_dict. assert (G : forall l n, (l = bs "<</Filter /FlateDecode /Length " \/ l = bs "<</Length ") ->
      past 0 0 false ((l +++ dec n +++ bs ">>" +++ nl) +++ r) = Some (eol +++ r)).
    { intros l n Hl. rewrite <- ?app_assoc. transitivity (past 2 0 false (dec n +++ bs ">>" +++ nl +++ r)); [destruct Hl as [->| ->]; reflexivity|].
      rewrite past_free by apply no_delimiter_dec. reflexivity. }
    destruct (d_compress d); apply G; tauto.
  Qed.
  Lemma length_content pg r : exists r', entry_of (bs "/Length ") (content_dict d pg +++ r) = Some (dec (zlen (page_data d pg)) +++ bs ">>" +++ r').
  Proof.
    unfold content_dict. eexists. unfold entry_of. destruct (d_compress d).
    - rewrite (proj2 (prefixb_spec (bs "<<") _)) by (eexists; reflexivity).
      change (bs "<</Filter /FlateDecode /Length ") with (bs "<</Filter /FlateDecode " +++ bs "/Length "). rewrite <- ?app_assoc. sk. rewrite seek_hit by discriminate. reflexivity.
    - rewrite (proj2 (prefixb_spec (bs "<<") _)) by (eexists; reflexivity).
      change (bs "<</Length ") with (bs "<<" +++ bs "/Length "). rewrite <- ?app_assoc. sk. rewrite seek_hit by discriminate. reflexivity.
  Qed.
  Lemma filter_content pg r :
    if d_compress d then exists r', entry_of (bs "/Filter ") (content_dict d pg +++ r) = Some (bs "/FlateDecode " +++ r')
    else entry_of (bs "/Filter ") (content_dict d pg +++ r) = None.
  Proof.
    unfold content_dict, entry_of. generalize (zlen (page_data d pg)). intros n. destruct (d_compress d).
    - eexists. rewrite (proj2 (prefixb_spec (bs "<<") _)) by (eexists; reflexivity).
      change (bs "<</Filter /FlateDecode /Length ") with (bs "<<" +++ bs "/Filter " +++ bs "/FlateDecode " +++ bs "/Length "). rewrite <- ?app_assoc. sk. rewrite seek_hit by discriminate. reflexivity.
    - rewrite (proj2 (prefixb_spec (bs "<<") _)) by (eexists; reflexivity). sk. reflexivity.
  Qed.
  Lemma stream_data_of file table k pg r : object_from file table k = Some ((content_dict d pg +++ stream_text (cipher d k (page_data d pg))) +++ bs "endobj" +++ eol +++ r) ->
    stream_data inflate (std_crypt (e_md5 E) (option_map pr_key (d_protect d))) file table k = Some (replace_aliases d (pg_content pg)).
  Proof.
    intros H. unfold stream_data. rewrite H. cbn [bind]. clear H. unfold stream_text. change nl with eol. rewrite <- ?app_assoc.
    match goal with |- context [content_dict d pg +++ ?t] => destruct (length_content pg t) as (r1 & ->); pose proof (filter_content pg t) as HF; rewrite (past_content pg t) end.
    cbn [bind]. rewrite read_dec_dec by (try apply zlen_nonneg; reflexivity). cbn [bind fst].
    match goal with |- context [skip_white (eol +++ bs "stream" +++ ?t)] => change (skip_white (eol +++ bs "stream" +++ t)) with (bs "stream" +++ t) end.
    rewrite strip2. cbn [bind].
    set (c := cipher d k (page_data d pg)) in *.
    assert (Hc : Z.to_nat (zlen (page_data d pg)) = length c). { unfold c. pose proof (cipher_len d k (page_data d pg)) as X. unfold zlen in *. lia. }
    rewrite Hc, skipn_app, skipn_all, Nat.sub_diag. cbn [skipn app].
    rewrite strip5. cbn [bind]. rewrite firstn_app, firstn_all, Nat.sub_diag. cbn [firstn]. rewrite app_nil_r.
    assert (Ec : std_crypt (e_md5 E) (option_map pr_key (d_protect d)) k c = page_data d pg).
    { unfold c. transitivity (std_crypt (e_md5 E) (option_map pr_key (d_protect d)) k (std_crypt (e_md5 E) (option_map pr_key (d_protect d)) k (page_data d pg))); [|apply std_crypt_invol].
      f_equal. unfold cipher, std_crypt. now destruct (d_protect d). }
    rewrite Ec. clear Ec Hc. clearbody c. unfold page_data in *. destruct (d_compress d).
    - destruct HF as (r2 & ->). rewrite (proj2 (prefixb_spec (bs "/FlateDecode ") _)) by (eexists; reflexivity). apply inflate_zlib.
    - rewrite HF. reflexivity.
  Qed.
End Stream.
