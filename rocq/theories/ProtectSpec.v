(** The standard security handler, revision 2 (ISO 32000-1, 7.6.3), as a reader
    of the file applies it.  The digest MD5 is a parameter. *)
From Verif Require Import Base TextSpec DocSpec Crypto.
From Coq Require Import String.
Open Scope Z_scope.

(** 7.6.3.3, Algorithm 2, step a *)
Definition pad_string : bytes :=
  [40; 191; 78; 94; 78; 117; 138; 65; 100; 0; 78; 86; 255; 250; 1; 8;
   46; 46; 0; 182; 208; 104; 62; 128; 47; 12; 169; 254; 100; 83; 105; 122].
Definition padded (pw : bytes) : bytes := firstn 32 (pw ++ pad_string).
Definition rc4 (key data : bytes) : bytes := fst (xor_stream (rc4_new key) data).
(** step d: P as an unsigned four-byte integer, low order byte first *)
Definition low_first (p : Z) : bytes := [p mod 256; p / 256 mod 256; p / 65536 mod 256; p / 16777216 mod 256].
(** Algorithm 2 for a 40-bit key: the encryption key for a user password *)
Definition file_key (md5 : bytes -> bytes) (pw O : bytes) (P : Z) (id : bytes) : bytes :=
  firstn 5 (md5 (padded pw ++ O ++ low_first P ++ id)).
(** Algorithm 6: the user password is accepted *)
Definition user_accepted md5 pw O U P id : Prop := rc4 (file_key md5 pw O P id) pad_string = U.
(** Algorithm 7: the owner password decrypts O to a user password, which must be accepted *)
Definition owner_recovers (md5 : bytes -> bytes) (owner O : bytes) : bytes := rc4 (firstn 5 (md5 (padded owner))) O.
Definition owner_accepted md5 owner O U P id : Prop := user_accepted md5 (owner_recovers md5 owner O) O U P id.

(** reading the dictionary: a negative number, and the entries O, U, P *)
Definition read_int (s : bytes) : option (Z * bytes) :=
  match s with
  | 45 :: t => match read_dec t with Some (n, r) => Some (- n, r) | None => None end
  | _ => read_dec s
  end.
Definition encryption_dict (body O U : bytes) (P : Z) : Prop := exists r1 r2 r3,
  body = bs "<<" ++ eol ++ bs "/Filter /Standard" ++ eol ++ bs "/V 1" ++ eol ++ bs "/R 2" ++ eol ++ bs "/O " ++ r1 /\
  read_string r1 = Some (O, eol ++ bs "/U " ++ r2) /\
  read_string r2 = Some (U, eol ++ bs "/P " ++ r3) /\
  read_int r3 = Some (P, eol ++ bs ">>" ++ eol).
(** the trailer dictionary, found through startxref and after the cross-reference table *)
Definition trailer_in (file t : bytes) : Prop := exists x entries r,
  startxref file x /\ read_table (skipn (Z.to_nat x) file) = Some (entries, bs "trailer" ++ eol ++ bs "<<" ++ eol ++ t ++ bs ">>" ++ eol ++ r).

(** Table 22: bits 3 to 6 (numbered from 1) are print, modify, copy, annotate; bits 1 and 2 are 0 and
    the others 1 *)
Definition permissions (P : Z) (print modify copy annotate : bool) : Prop :=
  forall i, 0 <= i -> Z.testbit P i =
    if i =? 2 then print else if i =? 3 then modify else if i =? 4 then copy else if i =? 5 then annotate else 6 <=? i.
