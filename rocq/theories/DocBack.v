(** From the assembled document to what a reader of the file finds. *)
From Verif Require Import Base TextModel Crypto DocModel DocSpec DocSort DocProofs DocWalk DocParts DocRes DocRes2 DocEnd DocXref DocLayout DocFile.
From Coq Require Import String Permutation.
Open Scope Z_scope.
Notation length := List.length.
Local Notation "a +++ b" := (List.app a b) (at level 60, right associativity, only parsing).

Lemma plain_clean s : plain s -> clean s = true.
Proof.
  intros [H1 H2]. unfold clean. apply andb_true_intro. split; [now apply hd76|].
  clear H1. induction s as [|c s IH]; [reflexivity|].
  assert (Hs : nosl s = true) by (apply IH; intros a b E; apply (H2 (c :: a) b); cbn; now rewrite E).
  destruct s as [|y s]; [reflexivity|]. cbn [nosl] in *. apply andb_true_intro. split; [|exact Hs].
  destruct (c =? 47) eqn:Ec; [|reflexivity]. apply Z.eqb_eq in Ec. subst c. destruct (y =? 76) eqn:E2; [|reflexivity].
  apply Z.eqb_eq in E2. subst y. exfalso. apply (H2 [] s). reflexivity.
Qed.

(** what the callers and parsers guarantee about a document; [within t u] (DocSort): template t is u or
    is included in it, directly or not *)
Record well_formed {E : env} (d : doc (e_num E)) : Prop := {
  wf_order : forall site A (l : list A), Permutation (e_shuffle E site A l) l;
  wf_fmt : forall x, plain (e_fmt2 E x) /\ plain (e_fmt5 E x);
  wf_img : forall e, In e (d_images d) -> plain (im_cs (snd e)) /\ plain (im_filter (snd e)) /\ plain (im_dp (snd e));
  wf_font : forall e, In e (d_fonts d) -> plain (fo_id (snd e));
  wf_tpl : forall e t, In e (d_tpls d) -> within t (snd e) ->
             plain (tpl_id t) /\ forall i, In i (tpl_images t) -> plain (im_id (snd i));
  wf_ptr : forall e1 e2 a b, In e1 (d_tpls d) -> In e2 (d_tpls d) -> within a (snd e1) -> within b (snd e2) ->
             tpl_ptr a = tpl_ptr b -> a = b;
  wf_imp : forall e, In e (d_impobjs d) -> imported_closed e }.

Section Back.
  Context {E : env} (d : doc (e_num E)).

  Lemma well_formed_inputs : well_formed d -> inputs_ok d.
  Proof.
    intros []. pose proof (fun A s b lt (l : list A) x => proj1 (keyed_in E wf_order0 s b lt l x)) as KI. constructor.
    - intros e He. apply KI in He. destruct (wf_img0 e He) as (A & B & C). repeat split; now apply plain_clean.
    - intros t Ht. apply (sort_tpls_in (E := E)) in Ht; [|exact wf_order0]. destruct Ht as (e & He & Hw). split.
      + intros i Hi. apply KI in Hi. apply plain_clean. eapply wf_tpl0; eauto.
      + intros s Hs. apply plain_clean. apply (wf_tpl0 e s He). clear - Hw Hs. induction Hw as [t|t u v Hu Hw IH].
        * eapply within_sub; [exact Hs|constructor].
        * eapply within_sub; [exact Hu|auto].
    - intros x. split; apply plain_clean; apply wf_fmt0.
    - intros e He. apply KI in He. apply plain_clean. auto.
    - intros e He. apply wf_imp0. eapply Permutation_in; [|exact He]. apply wf_order0.
    - intros l. apply wf_order0.
  Qed.

  (** the file *)
  Definition finished (pre : bytes) : Prop := ok (enddoc d (w_init pre)).
  Definition file_of (pre : bytes) : bytes := w_buf (enddoc d (w_init pre)).
  Definition nobj (pre : bytes) : Z := w_n (enddoc d (w_init pre)).

  Lemma in_split {A} (x : A) l : In x l -> exists a c, l = a +++ x :: c.
  Proof. apply List.in_split. Qed.
  Lemma found_at_app a b c : found_at (a +++ b +++ c) (zlen a) b.
  Proof.
    split; [apply zlen_nonneg|]. exists c. unfold zlen. rewrite Nat2Z.id, skipn_app, skipn_all, Nat.sub_diag. reflexivity.
  Qed.
  Lemma found_at_app' file a b c off : file = a +++ b +++ c -> off = zlen a -> found_at file off b.
  Proof. intros -> ->. apply found_at_app. Qed.

  Section A.
    Variables (pre : bytes) (fin : wst) (os : list (Z * bytes)) (ps : list Z) (oa : list (Z * bytes)).
    Hypothesis AS : assembled d pre fin os ps oa.
    Hypothesis Small : zlen (w_buf fin) < 10 ^ 10.
    Local Notation file := (w_buf fin).

    Lemma num_range k : In k (map fst os) <-> 1 <= k <= w_n fin.
    Proof.
      pose proof (as_n _ _ _ _ _ _ AS). split.
      - intros H'. eapply Permutation_in in H'; [|exact (as_nums _ _ _ _ _ _ AS)]. apply in_nums in H'. lia.
      - intros H'. eapply Permutation_in; [symmetry; exact (as_nums _ _ _ _ _ _ AS)|]. apply in_nums. lia.
    Qed.
    Lemma tables : exists x offs enc rest, startxref file x /\ found_at file x (bs "xref" +++ nl) /\ zlen offs = w_n fin /\
      read_table (skipn (Z.to_nat x) file) = Some (Free 0 65535 :: map (fun o => InUse o 0) offs, rest) /\
      rest = bs "trailer" +++ nl +++ bs "<<" +++ nl +++ trailer_text (w_n fin) enc +++ bs ">>" +++ nl +++ bs "startxref" +++ nl +++ dec x +++ nl +++ bs "%%EOF" +++ nl /\
      file = (pre +++ render os) +++ xref_text (w_n fin) x offs (trailer_text (w_n fin) enc) /\ x = zlen (pre +++ render os) /\
      (forall k s, In (k, s) os -> exists off, nth_error offs (Z.to_nat (k - 1)) = Some off /\ found_at file off (objtext (k, s))) /\
      match d_protect d with
      | None => enc = None
      | Some p => exists k, enc = Some k /\ In (obj k (enc_body p)) os
      end.
    Proof.
      destruct (as_buf _ _ _ _ _ _ AS) as (offs & enc & Hl & Hb & Ho & He).
      set (P := pre +++ render os) in *. exists (zlen P), offs, enc.
      assert (Ho' : forall k s, In (k, s) os -> exists off, nth_error offs (Z.to_nat (k - 1)) = Some off /\ found_at file off (objtext (k, s)) /\ 0 <= off < 10 ^ 10).
      { intros k s Hin. apply in_split in Hin as (a & c & Eo). pose proof (Ho _ _ _ Eo) as Hk. cbn [fst] in Hk. exists (zlen (pre +++ render a)). split; [exact Hk|].
        assert (Ef : file = (pre +++ render a) +++ objtext (k, s) +++ (render c +++ xref_text (w_n fin) (zlen P) offs (trailer_text (w_n fin) enc))).
        { rewrite Hb. unfold P. rewrite Eo, render_app. unfold render at 2. cbn [map List.concat]. fold (render c). rewrite <- ?app_assoc. reflexivity. }
        split; [eapply found_at_app'; [exact Ef|reflexivity]|]. split; [apply zlen_nonneg|].
        eapply Z.le_lt_trans; [|exact Small]. rewrite Ef. rewrite (zlen_app (pre +++ render a)). pose proof (zlen_nonneg (objtext (k, s) +++ render c +++ xref_text (w_n fin) (zlen P) offs (trailer_text (w_n fin) enc))). lia. }
      assert (F : Forall (fun o => 0 <= o < 10 ^ 10) offs).
      { apply Forall_forall. intros o Hin. apply In_nth_error in Hin as (i & Hi).
        assert (Hi' : (i < length offs)%nat) by (apply nth_error_Some; congruence).
        assert (Hk : In (Z.of_nat i + 1) (map fst os)) by (apply num_range; unfold zlen in Hl; lia).
        apply in_map_iff in Hk as ([k s] & Ek & Hin). cbn in Ek. destruct (Ho' k s Hin) as (off & Hoff & _ & Hr).
        replace (Z.to_nat (k - 1)) with i in Hoff by lia. rewrite Hi in Hoff. injection Hoff as ->. exact Hr. }
      assert (Es : skipn (Z.to_nat (zlen P)) file = xref_text (w_n fin) (zlen P) offs (trailer_text (w_n fin) enc)).
      { rewrite Hb. unfold zlen. rewrite Nat2Z.id, skipn_app, skipn_all, Nat.sub_diag. reflexivity. }
      eexists. split; [|split; [|split; [exact Hl|split; [rewrite Es; apply read_table_text; assumption|split; [reflexivity|split; [exact Hb|split; [reflexivity|split; [|exact He]]]]]]]].
      - unfold startxref. rewrite Hb. unfold xref_text.
        exists (P +++ bs "xref" +++ nl +++ (bs "0 " +++ dec (w_n fin + 1)) +++ nl +++ bs "0000000000 65535 f " +++ nl +++
          List.concat (map entry_text offs) +++ bs "trailer" +++ nl +++ bs "<<" +++ nl +++ trailer_text (w_n fin) enc +++ bs ">>" +++ nl).
        change eol with nl. rewrite <- ?app_assoc. reflexivity.
      - eapply (found_at_app' _ P (bs "xref" +++ nl)); [|reflexivity]. rewrite Hb. unfold xref_text. rewrite <- (app_assoc (bs "xref") nl). reflexivity.
      - intros k s Hin. destruct (Ho' k s Hin) as (off & A & B & _). eauto.
    Qed.
    Lemma lookup k body : In (obj k body) os -> object_in file k body.
    Proof.
      intros Hin. destruct tables as (x & offs & enc & rest & Sx & _ & Hl & R & _ & _ & _ & Hoff & _).
      unfold obj in Hin. destruct (Hoff _ _ Hin) as (off & Hn & Hf).
      assert (Hk : 1 <= k <= w_n fin) by (apply num_range; apply (in_map fst) in Hin; exact Hin).
      exists x, (Free 0 65535 :: map (fun o => InUse o 0) offs), rest, off. split; [exact Sx|]. split; [exact R|]. split; [lia|]. split.
      - replace (Z.to_nat k) with (S (Z.to_nat (k - 1))) by lia. cbn [nth_error]. exact (map_nth_error (fun o => InUse o 0) _ _ Hn).
      - exact Hf.
    Qed.
    Lemma stream_lookup k body data : In (obj k body) os -> stream_body body data -> stream_in file k data.
    Proof. intros H S. exists body. split; [now apply lookup|exact S]. Qed.
    Lemma holds_in data : holds d data os -> exists k, stream_in file k (cipher d k data).
    Proof. intros (k & body & H & S). exists k. eapply stream_lookup; eauto. Qed.
    Lemma blocks_os : blocks (map fst os) (render os).
    Proof.
      pose proof (as_closed _ _ _ _ _ _ AS) as F. clear - F. induction F as [|[k s] os Hc F IH]; [constructor|].
      unfold render. cbn [map List.concat fst]. apply blocks_cons; [|exact IH]. destruct Hc as (body & ws & Es & Fw). cbn [snd] in Es.
      exists body, ws. split; [|exact Fw]. unfold objtext, object_text. cbn [fst snd]. rewrite Es. change eol with nl. rewrite <- ?app_assoc. reflexivity.
    Qed.
  End A.
End Back.
