(** RC4 as in Go's crypto/rc4 (used by protect.go), and XOR facts.
    MD5 (crypto/md5) stays an arbitrary function in every theorem. *)
From Verif Require Import Base.
Open Scope Z_scope.

Definition byte_xor (a b : Z) : Z := Z.lxor a b.

(** permutation table as a list of 256 values; total read *)
Definition sget (s : list Z) (i : Z) : Z := nth (Z.to_nat i) s 0.
Fixpoint set_nth {A} (k : nat) (v : A) (l : list A) : list A :=
  match l, k with
  | [], _ => []
  | _ :: t, O => v :: t
  | x :: t, S k' => x :: set_nth k' v t
  end.
Definition swap (s : list Z) (i j : Z) : list Z :=
  let a := sget s i in let b := sget s j in
  set_nth (Z.to_nat j) a (set_nth (Z.to_nat i) b s).

Record rc4st := { rc_s : list Z; rc_i : Z; rc_j : Z }.

(** crypto/rc4 NewCipher: key scheduling *)
Fixpoint ksa (key : bytes) (k : nat) (i : Z) (s : list Z) (j : Z) : list Z :=
  match k with
  | O => s
  | S k' =>
      let j' := (j + sget s i + sget key (i mod Z.of_nat (List.length key))) mod 256 in
      ksa key k' (i + 1) (swap s i j') j'
  end.
Definition rc4_new (key : bytes) : rc4st :=
  {| rc_s := ksa key 256 0 (map Z.of_nat (seq 0 256)) 0; rc_i := 0; rc_j := 0 |}.

(** one keystream byte *)
Definition rc4_next (st : rc4st) : Z * rc4st :=
  let i := (rc_i st + 1) mod 256 in
  let x := sget (rc_s st) i in
  let j := (rc_j st + x) mod 256 in
  let s := swap (rc_s st) i j in
  (sget s ((x + sget (rc_s st) j) mod 256), {| rc_s := s; rc_i := i; rc_j := j |}).

(** crypto/rc4 XORKeyStream *)
Fixpoint xor_stream (st : rc4st) (b : bytes) : bytes * rc4st :=
  match b with
  | [] => ([], st)
  | c :: t =>
      let (k, st1) := rc4_next st in
      let (r, st2) := xor_stream st1 t in
      (byte_xor c k :: r, st2)
  end.

Lemma byte_xor_invol a k : byte_xor (byte_xor a k) k = a.
Proof. unfold byte_xor. rewrite Z.lxor_assoc, Z.lxor_nilpotent. apply Z.lxor_0_r. Qed.

Lemma xor_stream_length st b : List.length (fst (xor_stream st b)) = List.length b.
Proof.
  revert st. induction b as [|c b IH]; intros st; [reflexivity|]. cbn [xor_stream].
  destruct (rc4_next st) as [k st1]. specialize (IH st1). destruct (xor_stream st1 b). cbn in *. now rewrite IH.
Qed.

Lemma xor_stream_invol st b : fst (xor_stream st (fst (xor_stream st b))) = b.
Proof.
  revert st. induction b as [|c b IH]; intros st; [reflexivity|]. cbn [xor_stream].
  destruct (rc4_next st) as [k st1] eqn:E. specialize (IH st1). destruct (xor_stream st1 b) as [r st2].
  cbn [fst xor_stream]. rewrite E. cbn in IH. destruct (xor_stream st1 r) as [r' st3]. cbn in *. now rewrite byte_xor_invol, IH.
Qed.

(** the state after encrypting does not depend on the data, only its length *)
Lemma xor_stream_app st a b :
  xor_stream st (a ++ b) =
  (fst (xor_stream st a) ++ fst (xor_stream (snd (xor_stream st a)) b),
   snd (xor_stream (snd (xor_stream st a)) b)).
Proof.
  revert st. induction a as [|c a IH]; intros st; [cbn; now destruct (xor_stream st b)|].
  cbn [app xor_stream]. destruct (rc4_next st) as [k st1]. rewrite IH.
  destruct (xor_stream st1 a) as [r st2]. cbn [fst snd app].
  destruct (xor_stream st2 b). reflexivity.
Qed.

(** RFC 6229 style test vector: key "Key", plaintext "Plaintext" *)
Example rc4_ex : fst (xor_stream (rc4_new [75; 101; 121]) [80; 108; 97; 105; 110; 116; 101; 120; 116])
  = [187; 243; 22; 232; 217; 64; 175; 10; 211].
Proof. vm_compute. reflexivity. Qed.

(** ** MD5 (RFC 1321), Go's crypto/md5.  Used only to run the model on concrete
    documents; the theorems treat it as an arbitrary function. *)
Definition md5_k : list Z :=
  [3614090360; 3905402710; 606105819; 3250441966; 4118548399; 1200080426; 2821735955;
   4249261313; 1770035416; 2336552879; 4294925233; 2304563134; 1804603682; 4254626195;
   2792965006; 1236535329; 4129170786; 3225465664; 643717713; 3921069994; 3593408605;
   38016083; 3634488961; 3889429448; 568446438; 3275163606; 4107603335; 1163531501;
   2850285829; 4243563512; 1735328473; 2368359562; 4294588738; 2272392833; 1839030562;
   4259657740; 2763975236; 1272893353; 4139469664; 3200236656; 681279174; 3936430074;
   3572445317; 76029189; 3654602809; 3873151461; 530742520; 3299628645; 4096336452;
   1126891415; 2878612391; 4237533241; 1700485571; 2399980690; 4293915773; 2240044497;
   1873313359; 4264355552; 2734768916; 1309151649; 4149444226; 3174756917; 718787259;
   3951481745].
Definition md5_s : list Z :=
  [7; 12; 17; 22; 7; 12; 17; 22; 7; 12; 17; 22; 7; 12; 17; 22; 5; 9; 14; 20; 5; 9; 14; 20;
   5; 9; 14; 20; 5; 9; 14; 20; 4; 11; 16; 23; 4; 11; 16; 23; 4; 11; 16; 23; 4; 11; 16; 23;
   6; 10; 15; 21; 6; 10; 15; 21; 6; 10; 15; 21; 6; 10; 15; 21].
Definition w32 (x : Z) : Z := x mod 4294967296.
Definition rotl32 (x s : Z) : Z := w32 (Z.lor (Z.shiftl x s) (Z.shiftr x (32 - s))).
Definition not32 (x : Z) : Z := 4294967295 - x.

Fixpoint le_bytes (k : nat) (n : Z) : bytes :=
  match k with O => [] | S k' => n mod 256 :: le_bytes k' (n / 256) end.
Fixpoint le_words (k : nat) (b : bytes) : list Z :=
  match k with
  | O => []
  | S k' => match b with
            | a :: b1 :: c :: d :: t => (a + 256 * b1 + 65536 * c + 16777216 * d) :: le_words k' t
            | _ => []
            end
  end.

Fixpoint md5_rounds (m : list Z) (k : nat) (i : Z) (ks ss : list Z) (a b c d : Z) : Z * Z * Z * Z :=
  match k, ks, ss with
  | S k', kc :: ks', s :: ss' =>
      let '(f, g) :=
        if i <? 16 then (Z.lor (Z.land b c) (Z.land (not32 b) d), i)
        else if i <? 32 then (Z.lor (Z.land d b) (Z.land (not32 d) c), (5 * i + 1) mod 16)
        else if i <? 48 then (Z.lxor b (Z.lxor c d), (3 * i + 5) mod 16)
        else (Z.lxor c (Z.lor b (not32 d)), (7 * i) mod 16) in
      let f' := w32 (f + a + kc + sget m g) in
      md5_rounds m k' (i + 1) ks' ss' d (w32 (b + rotl32 f' s)) b c
  | _, _, _ => (a, b, c, d)
  end.
Fixpoint md5_blocks (fuel : nat) (data : bytes) (a b c d : Z) : Z * Z * Z * Z :=
  match fuel, data with
  | S k, _ :: _ =>
      let m := le_words 16 data in
      let '(a', b', c', d') := md5_rounds m 64 0 md5_k md5_s a b c d in
      md5_blocks k (skipn 64 data) (w32 (a + a')) (w32 (b + b')) (w32 (c + c')) (w32 (d + d'))
  | _, _ => (a, b, c, d)
  end.
Definition md5_pad (b : bytes) : bytes :=
  let n := Z.of_nat (List.length b) in
  b ++ 128 :: repeat 0 (Z.to_nat ((55 - n) mod 64)) ++ le_bytes 8 (8 * n).
Definition md5_sum (b : bytes) : bytes :=
  let p := md5_pad b in
  let '(a, b, c, d) := md5_blocks (S (List.length p)) p 1732584193 4023233417 2562383102 271733878 in
  le_bytes 4 a ++ le_bytes 4 b ++ le_bytes 4 c ++ le_bytes 4 d.

(** RFC 1321 test suite *)
Example md5_ex0 : md5_sum [] = [212;29;140;217;143;0;178;4;233;128;9;152;236;248;66;126].
Proof. vm_compute. reflexivity. Qed.
Example md5_abc : md5_sum [97;98;99] = [144;1;80;152;60;210;79;176;214;150;63;125;40;225;127;114].
Proof. vm_compute. reflexivity. Qed.

(** ISO 32000-1 7.6.2, Algorithm 1 with a 40 bit key: encryption (and decryption) of the data of object
    k, generation 0; the digest is a parameter *)
Definition std_crypt (md5 : bytes -> bytes) (key : option bytes) (k : Z) (data : bytes) : bytes :=
  match key with
  | None => data
  | Some key => fst (xor_stream (rc4_new (firstn 10 (md5 (key ++ [k mod 256; (k / 256) mod 256; (k / 65536) mod 256; 0; 0])))) data)
  end.
Lemma std_crypt_invol md5 key k data : std_crypt md5 key k (std_crypt md5 key k data) = data.
Proof. destruct key; [apply xor_stream_invol|reflexivity]. Qed.
