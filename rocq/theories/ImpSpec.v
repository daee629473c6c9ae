(** Specification for C81: imported pages.  The importer hands over objects under names (hashes), the places where these objects
    refer to each other, and the names of the pages.  A later value replaces an earlier one for the same key. *)
From Verif Require Import Base ImpModel.
Open Scope Z_scope.

(** what a call hands over, by kind *)
Definition objs_in (c : import_call) : list (bytes * bytes) := match c with Objects l => l | _ => [] end.
Definition pos_in (c : import_call) : list (bytes * list (Z * bytes)) := match c with Positions l => l | _ => [] end.
Definition names_in (c : import_call) : list (bytes * bytes) := match c with Names l => l | _ => [] end.
(** the last value handed over for the key h *)
Definition last_given {A} (sel : import_call -> list (bytes * A)) (cs : list import_call) (h : bytes) (v : A) : Prop :=
  exists before c after, cs = before ++ c :: after /\ In (h, v) (sel c) /\ forall c', In c' after -> ~ In h (map fst (sel c')).
Definition never_given {A} (sel : import_call -> list (bytes * A)) (cs : list import_call) (h : bytes) : Prop :=
  forall c, In c cs -> ~ In h (map fst (sel c)).
(** the arguments are maps *)
Definition call_ok (c : import_call) : Prop := NoDup (map fst (objs_in c)) /\ NoDup (map fst (pos_in c)) /\ NoDup (map fst (names_in c)).
(** the object h has the data v with references ps *)
Definition handed (cs : list import_call) (h v : bytes) (ps : list (Z * bytes)) : Prop :=
  last_given objs_in cs h v /\ (last_given pos_in cs h ps \/ (ps = [] /\ never_given pos_in cs h)).
(** what is asked of the importer: references go to objects it hands over, and do not overlap *)
Definition references_ok (cs : list import_call) : Prop :=
  forall h v ps, handed cs h v ps ->
    (forall pos h', In (pos, h') ps -> 0 <= pos /\ exists v', last_given objs_in cs h' v') /\
    (forall p q, In p ps -> In q ps -> p = q \/ fst p + 40 <= fst q \/ fst q + 40 <= fst p).
