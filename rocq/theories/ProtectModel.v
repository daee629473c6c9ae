(** protect.go: the password data. *)
From Verif Require Import Base Crypto DocModel.
Open Scope Z_scope.

(** protect.go:94-99 in [setProtection]: the padding *)
Definition padding : bytes :=
  [40; 191; 78; 94; 78; 117; 138; 65; 100; 0; 78; 86; 255; 250; 1; 8;
   46; 46; 0; 182; 208; 104; 62; 128; 47; 12; 169; 254; 100; 83; 105; 122].

(** protect.go:67-75 [oValueGen] *)
Definition o_value_gen (md5 : bytes -> bytes) (user owner : bytes) : bytes :=
  let tmp := md5 owner in
  fst (xor_stream (rc4_new (firstn 5 tmp)) user).

(** protect.go:77-84 [uValueGen] *)
Definition u_value_gen (key : bytes) : bytes := fst (xor_stream (rc4_new key) padding).

(** protect.go:86-114 [setProtection]; [rnd] is the value of rand.Int63().  The
    constants CnProtect* are 4, 8, 16 and 32 (protect.go:30-35).  A byte is a Z
    in 0..255; privFlag^255 is 255 - privFlag. *)
Definition set_protection (md5 : bytes -> bytes) (rnd : Z) (flag : Z) (user_s owner_s : bytes) : protect :=
  let flag := Z.lor 192 (Z.land flag (Z.lor 16 (Z.lor 8 (Z.lor 4 32)))) in
  let owner := match owner_s with [] => le_bytes 8 rnd | _ => owner_s end in
  let user := firstn 32 (user_s ++ padding) in
  let owner := firstn 32 (owner ++ padding) in
  let o := o_value_gen md5 user owner in
  let buf := user ++ o ++ [flag; 255; 255; 255] in
  let key := firstn 5 (md5 buf) in
  {| pr_key := key; pr_o := o; pr_u := u_value_gen key; pr_p := - (Z.lxor flag 255 + 1) |}.
