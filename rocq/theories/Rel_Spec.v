(** Row semantics of a chain of joins, used by C10 and C15-C17.
    Tables are lists of distinct row numbers; a joined row says which row of each view it holds (no
    entry means NULL).  ON conditions compare one row of each side; a NULL side never matches.
    The join kinds are those the generator can emit (query_base.py:55-68); CROSS JOIN is not covered. *)
From Verif Require Import PyBase PyStr JoinGraph_Model.
Local Open Scope string_scope.
Local Open Scope list_scope.
Local Open Scope nat_scope.

Inductive jkind := KLeft | KInner | KFull.
Definition crow := list (string * nat).

Section Rows.
  Variable tab : string -> list nat.
  Variable on : join -> nat -> nat -> bool.
  Variable kind : join -> jkind.

  Definition matches (j : join) (c : crow) : list nat :=
    match assoc (jn_base j) c with
    | Some r => filter (on j r) (tab (jn_view j))
    | None => []
    end.
  Definition inner_rows (j : join) (c : crow) : list crow := map (fun r => (jn_view j, r) :: c) (matches j c).
  Definition left_rows (j : join) (c : crow) : list crow :=
    match matches j c with [] => [c] | _ => inner_rows j c end.
  Definition unmatched (j : join) (rows : list crow) : list nat :=
    filter (fun r => negb (existsb (fun c => existsb (Nat.eqb r) (matches j c)) rows)) (tab (jn_view j)).
  Definition join_rows (j : join) (rows : list crow) : list crow :=
    match kind j with
    | KInner => flat_map (inner_rows j) rows
    | KLeft => flat_map (left_rows j) rows
    | KFull => flat_map (left_rows j) rows ++ map (fun r => [(jn_view j, r)]) (unmatched j rows)
    end.
  Definition base_rows (base : string) : list crow := map (fun r => [(base, r)]) (tab base).
  (** SELECT * FROM base JOIN ... JOIN ... *)
  Definition joined (base : string) (js : list join) : list crow :=
    fold_left (fun rows j => join_rows j rows) js (base_rows base).

  (** The rows of view [v] occurring in joined rows, with multiplicity *)
  Definition occ (v : string) (rows : list crow) : list nat :=
    flat_map (fun c => match assoc v c with Some r => [r] | None => [] end) rows.

  (** The data agree with a declared relationship *)
  Definition one_right (j : join) : Prop :=
    forall u r1 r2, In u (tab (jn_base j)) -> In r1 (tab (jn_view j)) -> In r2 (tab (jn_view j)) ->
      on j u r1 = true -> on j u r2 = true -> r1 = r2.
  Definition one_left (j : join) : Prop :=
    forall u1 u2 r, In u1 (tab (jn_base j)) -> In u2 (tab (jn_base j)) -> In r (tab (jn_view j)) ->
      on j u1 r = true -> on j u2 r = true -> u1 = u2.
  Definition agrees (r : rel) (j : join) : Prop :=
    match r with
    | M2O => one_right j
    | O2O => one_right j /\ one_left j
    | O2M => one_left j
    | M2M => True
    end.

  (** The views every row of which occurs at most once after the joins, judged by the declared
      relationships alone. *)
  Fixpoint grain (u : list string) (js : list join) : list string :=
    match js with
    | [] => u
    | j :: r =>
        let here := existsb (String.eqb (jn_base j)) u in
        grain (match e_rel (jn_edge j) with
               | M2O => u
               | O2O => if here then jn_view j :: u else u
               | O2M => if here then [jn_view j] else []
               | M2M => []
               end) r
    end.
End Rows.

(** Tables whose join condition compares two identifiers. *)
Definition key_on (ku kv : nat -> option string) (u v : nat) : bool :=
  match ku u, kv v with Some a, Some b => String.eqb a b | _, _ => false end.
Definition unique_key (k : nat -> option string) (rows : list nat) : Prop :=
  forall r1 r2 a, In r1 rows -> In r2 rows -> k r1 = Some a -> k r2 = Some a -> r1 = r2.
Definition typed (t : itype) (k : nat -> option string) (rows : list nat) : Prop :=
  match t with TPrimary => unique_key k rows | _ => True end.

(** Every one_to_many join starts at a view that is still at the grain of the query. *)
Fixpoint chained (u : list string) (js : list join) : Prop :=
  match js with
  | [] => True
  | j :: r => (e_rel (jn_edge j) = O2M -> In (jn_base j) u) /\ chained (grain u [j]) r
  end.
