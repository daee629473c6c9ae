From Coq Require Import String ZArith List Bool Lia.
From Verif Require Import Base.
Import ListNotations.
Open Scope Z_scope.

(** Handing the finished document out: Output, OutputAndClose, OutputFileAndClose with writers and files that may fail at any byte.
    The document itself is a parameter: [close k] is what the k-th call of Close that gets to work appends to the buffer, and whether it ends
    with an error (which may be repaired before the next attempt); the assembly is in DocModel.v. *)

(** an io.Writer: how many of the bytes it takes, and whether it reports an error *)
Definition writer := bytes -> Z * bool.

Record odoc := { d_closed : bool; d_err : bool; d_buf : bytes; d_tries : nat }.
Definition set_err (e : bool) (d : odoc) : odoc := {| d_closed := d_closed d; d_err := e; d_buf := d_buf d; d_tries := d_tries d |}.

Section Out.
  Variable close : nat -> bytes * bool.

  (** fpdf.go:660-694 [Close]: nothing after an error or when the document is closed; state 3 is reached at the end *)
  Definition close_doc (d : odoc) : odoc :=
    if d_err d || d_closed d then d
    else let (b, e) := close (d_tries d) in {| d_closed := negb e; d_err := e; d_buf := d_buf d ++ b; d_tries := S (d_tries d) |}.

  (** bytes.Buffer.WriteTo: one call of Write with everything that is left, if there is anything; what was taken is removed; taking less than
      everything is an error; taking more is a panic *)
  Definition write_to (w : writer) (d : odoc) : outcome (bytes * odoc) :=
    match d_buf d with
    | [] => Ret ([], d)
    | b =>
        let (m, e) := w b in
        if (m <? 0) || (Z.of_nat (List.length b) <? m) then Panic
        else Ret (firstn (Z.to_nat m) b,
                  {| d_closed := d_closed d; d_err := d_err d || e || (m <? Z.of_nat (List.length b)); d_buf := skipn (Z.to_nat m) b; d_tries := d_tries d |})
    end.
  (** fpdf.go:3463-3476 [Output]: what the writer took; the error returned is the one of the document *)
  Definition output (w : writer) (d : odoc) : outcome (bytes * odoc) :=
    if d_err d then Ret ([], d) else write_to w (if d_closed d then d else close_doc d).

  (** Files by name.  [Some k] given to a call below: closing the file fails and only its first k bytes are there *)
  Definition disk := bytes -> option bytes.
  Definition put_file (f : bytes) (b : bytes) (k : disk) : disk := fun g => if beqb g f then Some b else k g.

  Inductive call :=
  | Close | SetError | ClearError
  | Output (w : writer)
  | OutputAndClose (w : writer) (close_fails : bool)
  | OutputFileAndClose (file : bytes) (create_fails : bool) (w : writer) (close_fails : option nat).

  (** what a call hands out, the document and the disk after it; the call returns the error of the document *)
  Definition exec (c : call) (st : odoc * disk) : outcome (bytes * (odoc * disk)) :=
    let (d, k) := st in
    match c with
    | Close => Ret ([], (close_doc d, k))
    | SetError => Ret ([], (set_err true d, k))                                      (* fpdf.go:284-288 *)
    | ClearError => Ret ([], (set_err false d, k))                                   (* fpdf.go:260-262 *)
    | Output w => obind (output w d) (fun r => Ret (fst r, (snd r, k)))
    | OutputAndClose w _ => obind (output w d) (fun r => Ret (fst r, (snd r, k)))     (* fpdf.go:3435-3439: the error of w.Close is dropped *)
    | OutputFileAndClose f cf w cl =>                                                (* fpdf.go:3446-3457: so is the error of pdfFile.Close *)
        if d_err d then Ret ([], (d, k))
        else if cf then Ret ([], (set_err true d, k))
        else obind (output w d) (fun r =>
             Ret (fst r, (snd r, put_file f (match cl with None => fst r | Some n => firstn n (fst r) end) k)))
    end.
  Fixpoint run (cs : list call) (st : odoc * disk) : outcome (list bytes * (odoc * disk)) :=
    match cs with
    | [] => Ret ([], st)
    | c :: cs => obind (exec c st) (fun r => obind (run cs (snd r)) (fun r2 => Ret (fst r :: fst r2, snd r2)))
    end.
  Definition fresh : odoc := {| d_closed := false; d_err := false; d_buf := []; d_tries := 0 |}.
End Out.
