(** png.go.  zlib is a parameter: [inflate] is zlib.NewReader followed by
    reading to the end, [deflate] is sliceCompress. *)
From Verif Require Import Base TextModel PngSpec.
From Coq Require Import String.
Open Scope Z_scope.
Notation length := List.length.

(** NewReader fails | reading fails | the data *)
Inductive zres := ZNoReader | ZBroken | ZPlain (b : bytes).

Section Png.
  Variable inflate : bytes -> zres.
  Variable deflate : bytes -> bytes.
  Variable itoa : Z -> bytes.                                     (* %d *)

  (** def.go: ImageInfoType; [i_dpi] is [None] for the default, else whether the
      number is to be divided by 39.3701, and the number *)
  Record info := { i_w : Z; i_h : Z; i_cs : bytes; i_bpc : Z; i_dp : bytes; i_pal : bytes; i_trns : list Z;
                   i_smask : option bytes; i_data : bytes; i_dpi : option (bool * Z) }.
  (** fpdf.go:3643-3646 [newImageInfo]: nothing known yet *)
  Definition no_info : info := {| i_w := 0; i_h := 0; i_cs := []; i_bpc := 0; i_dp := []; i_pal := []; i_trns := []; i_smask := None; i_data := []; i_dpi := None |}.

  (** bytes.Buffer.Next: at most what is there; a negative count panics *)
  Definition next (n : Z) (b : bytes) : outcome (bytes * bytes) :=
    if n <? 0 then Panic else Ret (firstn (Z.to_nat n) b, skipn (Z.to_nat n) b).
  Definition next4 (b : bytes) : bytes * bytes := (firstn 4 b, skipn 4 b).
  Definition signed32 (n : Z) : Z := if n <? 2147483648 then n else n - 4294967296.
  (** fpdf.go:3696-3702 [readBeInt32]: value, rest, error; a short read uses up what
      there is, and no bytes at all are no error *)
  Definition read_be32 (b : bytes) : Z * bytes * bool :=
    match b with
    | x :: y :: z :: t :: r => (signed32 (((x * 256 + y) * 256 + z) * 256 + t), r, false)
    | [] => (0, [], false)
    | _ => (0, [], true)
    end.
  (** fpdf.go:3704-3710 [readByte] *)
  Definition read_byte (b : bytes) : Z * bytes * bool := match b with x :: r => (x, r, false) | [] => (0, [], true) end.
  (** png.go:25-39 [pngColorSpace] *)
  Definition color_space (ct : Z) : option (bytes * Z) :=
    if (ct =? 0) || (ct =? 4) then Some (bs "DeviceGray", 1) else if (ct =? 2) || (ct =? 6) then Some (bs "DeviceRGB", 3)
    else if ct =? 3 then Some (bs "Indexed", 1) else None.

  (** strings.Index for one byte *)
  Fixpoint index_of (c : Z) (s : bytes) (i : Z) : option Z := match s with [] => None | x :: t => if x =? c then Some i else index_of c t (i + 1) end.
  Definition byte_at (b : bytes) (i : Z) : outcome Z := if i <? 0 then Panic else match nth_error b (Z.to_nat i) with Some v => Ret v | None => Panic end.

  (** png.go:82-148 (parsepngstream): the scan of the chunks *)
  Record scan := { s_pal : bytes; s_trns : list Z; s_data : bytes; s_dpi : option (bool * Z); s_err : bool }.
  Definition trns_of (ct : Z) (t : bytes) (old : list Z) : outcome (list Z) :=
    if ct =? 0 then obind (byte_at t 1) (fun a => Ret [a])
    else if ct =? 2 then obind (byte_at t 1) (fun a => obind (byte_at t 3) (fun b => obind (byte_at t 5) (fun c => Ret [a; b; c])))
    else match index_of 0 t 0 with Some p => Ret [p] | None => Ret old end.
  (** one round: the state, the rest and whether IEND was met *)
  Definition one_chunk (readdpi : bool) (ct n : Z) (ty b : bytes) (s : scan) : outcome (scan * bytes * bool) :=
    if beqb ty (bs "PLTE") then
      obind (next n b) (fun '(d, b) => Ret ({| s_pal := d; s_trns := s_trns s; s_data := s_data s; s_dpi := s_dpi s; s_err := s_err s |}, snd (next4 b), false))
    else if beqb ty (bs "tRNS") then
      obind (next n b) (fun '(d, b) => obind (trns_of ct d (s_trns s)) (fun t =>
        Ret ({| s_pal := s_pal s; s_trns := t; s_data := s_data s; s_dpi := s_dpi s; s_err := s_err s |}, snd (next4 b), false)))
    else if beqb ty (bs "IDAT") then
      obind (next n b) (fun '(d, b) => Ret ({| s_pal := s_pal s; s_trns := s_trns s; s_data := s_data s ++ d; s_dpi := s_dpi s; s_err := s_err s |}, snd (next4 b), false))
    else if beqb ty (bs "IEND") then Ret (s, b, true)
    else if beqb ty (bs "pHYs") then
      let '(x, b, e1) := read_be32 b in let '(y, b, e2) := read_be32 b in
      match b with
      | [] => Panic
      | u :: b =>
          let dpi := if (x =? y) && readdpi then Some (u =? 1, x) else s_dpi s in
          Ret ({| s_pal := s_pal s; s_trns := s_trns s; s_data := s_data s; s_dpi := dpi; s_err := s_err s || e1 || e2 |}, snd (next4 b), false)
      end
    else obind (next (n + 4) b) (fun '(_, b) => Ret (s, b, false)).
  Fixpoint chunks_loop (fuel : nat) (readdpi : bool) (ct : Z) (b : bytes) (s : scan) : outcome scan :=
    match fuel with
    | O => OutOfFuel
    | S k =>
        let '(n, b, e) := read_be32 b in
        let '(ty, b) := next4 b in
        let s := {| s_pal := s_pal s; s_trns := s_trns s; s_data := s_data s; s_dpi := s_dpi s; s_err := s_err s || e |} in
        obind (one_chunk readdpi ct n ty b s) (fun '(s, b, fin) => if fin then Ret s else if 0 <? n then chunks_loop k readdpi ct b s else Ret s)
    end.

  (** png.go:161-206 (parsepngstream): separating the alpha channel; the result is
      the two buffers *)
  Fixpoint gray_cols (k : nat) (data : bytes) (el : Z) (co al : bytes) : outcome (bytes * bytes) :=
    match k with
    | O => Ret (co, al)
    | S k => obind (byte_at data el) (fun c => obind (byte_at data (el + 1)) (fun a => gray_cols k data (el + 2) (co ++ [c]) (al ++ [a])))
    end.
  Fixpoint rgb_cols (k : nat) (data : bytes) (el : Z) (co al : bytes) : outcome (bytes * bytes) :=
    match k with
    | O => Ret (co, al)
    | S k => obind (byte_at data el) (fun r => obind (byte_at data (el + 1)) (fun g => obind (byte_at data (el + 2)) (fun b => obind (byte_at data (el + 3)) (fun a =>
               rgb_cols k data (el + 4) (co ++ [r; g; b]) (al ++ [a])))))
    end.
  (** rows i, i+1, ..., k of them *)
  Fixpoint sep_rows (k : nat) (i : Z) (cols : nat -> bytes -> Z -> bytes -> bytes -> outcome (bytes * bytes)) (len : Z) (width : nat) (data : bytes) (co al : bytes) : outcome (bytes * bytes) :=
    match k with
    | O => Ret (co, al)
    | S k =>
        let pos := (1 + len) * i in
        obind (byte_at data pos) (fun ft => obind (cols width data (pos + 1) (co ++ [ft]) (al ++ [ft])) (fun '(co, al) =>
          sep_rows k (i + 1) cols len width data co al))
    end.
  Definition separate (ct w h : Z) (data : bytes) : outcome (bytes * bytes) :=
    if ct =? 4 then sep_rows (Z.to_nat h) 0 gray_cols (2 * w) (Z.to_nat w) data [] []
    else sep_rows (Z.to_nat h) 0 rgb_cols (4 * w) (Z.to_nat w) data [] [].

  (** png.go:80 (parsepngstream): the decoding parameters *)
  Definition parms (colors bpc w : Z) : bytes :=
    bs "/Predictor 15 /Colors " ++ itoa colors ++ bs " /BitsPerComponent " ++ itoa bpc ++ bs " /Columns " ++ itoa w.

  (** png.go:41-213 [parsepngstream]: the result and whether f.err is set (it is not
      set before).  sliceUncompress (util.go:94-106) defers r.Close() before it
      looks at the error, so a failing zlib.NewReader is a panic. *)
  Definition parse_png (readdpi : bool) (file : bytes) : outcome (info * bool) :=
    let err := Ret (no_info, true) in
    let b := file in
    if negb (beqb (firstn 8 b) signature) then err else
    let b := skipn 4 (skipn 8 b) in
    let '(ty, b) := next4 b in
    if negb (beqb ty (bs "IHDR")) then err else
    let '(w, b, e1) := read_be32 b in
    let '(h, b, e2) := read_be32 b in
    let '(bpc, b, e3) := read_byte b in
    let '(ct, b, e4) := read_byte b in
    match color_space ct with
    | None => err
    | Some (cs, colors) =>
        if e1 || e2 || e3 || e4 || (8 <? bpc) then err else
        let '(m1, b, e5) := read_byte b in
        if negb (m1 =? 0) then err else
        let '(m2, b, e6) := read_byte b in
        if negb (m2 =? 0) then err else
        let '(m3, b, e7) := read_byte b in
        if negb (m3 =? 0) then err else
        let b := snd (next4 b) in
        obind (chunks_loop (S (length b)) readdpi ct b {| s_pal := []; s_trns := []; s_data := []; s_dpi := None; s_err := e5 || e6 || e7 |}) (fun s =>
        let e := s_err s || (beqb cs (bs "Indexed") && (length (s_pal s) =? 0)%nat) in
        let mk sm data := {| i_w := w; i_h := h; i_cs := cs; i_bpc := bpc; i_dp := parms colors bpc w; i_pal := s_pal s; i_trns := s_trns s;
                             i_smask := sm; i_data := data; i_dpi := s_dpi s |} in
        if 4 <=? ct then
          match inflate (s_data s) with
          | ZNoReader => Panic
          | ZBroken => Ret (mk None [], true)
          | ZPlain data => obind (separate ct w h data) (fun '(co, al) => Ret (mk (Some (deflate al)) (deflate co), e))
          end
        else Ret (mk None (s_data s), e))
    end.
End Png.
