(** Reading the W array of a composite font (ISO 32000-1, 9.7.4.3). *)
From Verif Require Import Base.
From Coq Require Import String.
Open Scope Z_scope.
Notation length := List.length.

Inductive tok := TNum (n : Z) | TOpen | TClose.
(** numbers, brackets and white space; anything else is an error *)
Definition flush (cur : option Z) : list tok := match cur with Some n => [TNum n] | None => [] end.
Fixpoint toks (cur : option Z) (s : bytes) : option (list tok) :=
  match s with
  | [] => Some (flush cur)
  | c :: t =>
      if is_digit c then toks (Some (match cur with Some n => n * 10 + (c - 48) | None => c - 48 end)) t
      else
        let k x := option_map (fun l => flush cur ++ x ++ l) (toks None t) in
        if (c =? 32) || (c =? 10) then k []
        else if c =? 91 then k [TOpen]
        else if c =? 93 then k [TClose]
        else None
  end.
(** the two forms: c [w1 ... wn] and cfirst clast w *)
Inductive wstate := Start | One (c : Z) | Two (a b : Z) | InArray (c : Z).
Definition run_of (a b w : Z) : list (Z * Z) := map (fun i => (a + Z.of_nat i, w)) (seq 0 (Z.to_nat (b - a + 1))).
Fixpoint entries (st : wstate) (l : list tok) : option (list (Z * Z)) :=
  match l with
  | [] => match st with Start => Some [] | _ => None end
  | t :: r =>
      match st, t with
      | Start, TNum c => entries (One c) r
      | One c, TOpen => entries (InArray c) r
      | One a, TNum b => entries (Two a b) r
      | Two a b, TNum w => option_map (app (run_of a b w)) (entries Start r)
      | InArray c, TNum w => option_map (cons (c, w)) (entries (InArray (c + 1)) r)
      | InArray c, TClose => entries Start r
      | _, _ => None
      end
  end.
(** the text of a W entry gives these widths to these CIDs, in this order *)
Definition w_entry (text : bytes) (l : list (Z * Z)) : Prop :=
  exists inside ts, text = bs "/W [" ++ inside ++ bs " ]" /\ toks None inside = Some ts /\ entries Start ts = Some l.
