(** The outline tree described by a sequence of bookmark levels: item i is the
    i-th bookmark (from 0), [lv ls i] its level.  Independent of the model. *)
From Verif Require Import Base.
Open Scope Z_scope.

Definition count_items (ls : list Z) : Z := Z.of_nat (List.length ls).
Definition lv (ls : list Z) (i : Z) : Z := nth (Z.to_nat i) ls 0.
Definition item (ls : list Z) (i : Z) : Prop := 0 <= i < count_items ls.

(** levels start at 0 and go down the tree one step at a time *)
Definition well_nested (ls : list Z) : Prop :=
  (ls <> [] -> lv ls 0 = 0) /\ forall i, item ls i -> item ls (i + 1) -> 0 <= lv ls (i + 1) <= lv ls i + 1.

(** the parent of i: the root, numbered [count_items ls], for level 0, otherwise the nearest
    earlier item of the next lower level *)
Definition is_parent (ls : list Z) (i p : Z) : Prop :=
  item ls i /\
  (lv ls i = 0 /\ p = count_items ls \/
   lv ls i <> 0 /\ 0 <= p < i /\ lv ls p = lv ls i - 1 /\ forall j, p < j < i -> lv ls j <> lv ls i - 1).
Definition siblings (ls : list Z) (i j : Z) : Prop := exists p, is_parent ls i p /\ is_parent ls j p.
(** j comes immediately before i among the children of their parent *)
Definition is_prev (ls : list Z) (i j : Z) : Prop := j < i /\ siblings ls i j /\ forall k, j < k < i -> ~ siblings ls i k.
Definition is_first (ls : list Z) (p c : Z) : Prop := is_parent ls c p /\ forall c', is_parent ls c' p -> c <= c'.
Definition is_last (ls : list Z) (p c : Z) : Prop := is_parent ls c p /\ forall c', is_parent ls c' p -> c' <= c.

(** x is -1 when nothing satisfies P and satisfies P otherwise *)
Definition link_to (P : Z -> Prop) (x : Z) : Prop := (x = -1 /\ forall j, ~ P j) \/ P x.
