(** SQL's reading of a condition, and what filter groups mean (C21, C22, C27). *)
From Verif Require Import PyBase PyStr Core_Model Clause_Model.
Local Open Scope string_scope.
Local Open Scope list_scope.

(** ** Three-valued logic; None is UNKNOWN *)
Notation tv := (option bool).
Definition and3 (x y : tv) : tv :=
  match x, y with Some false, _ | _, Some false => Some false | Some true, Some true => Some true | _, _ => None end.
Definition or3 (x y : tv) : tv :=
  match x, y with Some true, _ | _, Some true => Some true | Some false, Some false => Some false | _, _ => None end.
Definition all3 (l : list tv) : tv := fold_right and3 (Some true) l.
Definition any3 (l : list tv) : tv := fold_right or3 (Some false) l.

(** ** How SQL reads a text: AND binds tighter than OR *)
Section Sql.
  Context {A : Type}.
  Variable val : A -> tv.
  Inductive sql_or : list (tok A) -> tv -> Prop :=
  | or_one ts x : sql_and ts x -> sql_or ts x
  | or_more ts x ts' y : sql_and ts x -> sql_or ts' y -> sql_or (ts ++ TOr :: ts') (or3 x y)
  with sql_and : list (tok A) -> tv -> Prop :=
  | and_one ts x : sql_prim ts x -> sql_and ts x
  | and_more ts x ts' y : sql_prim ts x -> sql_and ts' y -> sql_and (ts ++ TAnd :: ts') (and3 x y)
  with sql_prim : list (tok A) -> tv -> Prop :=
  | prim_atom a : sql_prim [TAtom a] (val a)
  | prim_paren ts x : sql_or ts x -> sql_prim (TOpen :: ts ++ [TClose]) x.
End Sql.

(** ** Meaning of a filter tree *)
Section Meaning.
  Context {A L : Type}.
  Variable leaf_value : L -> tv.                   (* the truth of one condition on the row *)
  Variable lit_value : list (tok A) -> tv.
  Fixpoint meaning (f : ftree A L) : tv :=
    match f with
    | FLeaf l => leaf_value l
    | FLit ts => lit_value ts
    | FGroup op conds =>
        let vs := map meaning conds in
        match op with Some o => if String.eqb o "OR" then any3 vs else all3 vs | None => all3 vs end
    end.
  (** Operators and emptiness at every depth *)
  Inductive bad_op : ftree A L -> Prop :=
  | bad_here o conds : ~ In o ["AND"; "OR"] -> bad_op (FGroup (Some o) conds)
  | bad_below op conds f : In f conds -> bad_op f -> bad_op (FGroup op conds).
  Inductive leaf_of (l : L) : ftree A L -> Prop :=
  | leaf_here : leaf_of l (FLeaf l)
  | leaf_below op conds f : In f conds -> leaf_of l f -> leaf_of l (FGroup op conds).
  Inductive has_empty : ftree A L -> Prop :=
  | empty_here op : has_empty (FGroup op [])
  | empty_below op conds f : In f conds -> has_empty f -> has_empty (FGroup op conds).
  Inductive has_lit : ftree A L -> Prop :=
  | lit_here ts : has_lit (FLit ts)
  | lit_below op conds f : In f conds -> has_lit f -> has_lit (FGroup op conds).
End Meaning.

(** ** Leaves, left to right *)
Section Leaves.
  Context {L : Type}.
  Inductive reads : fobj L -> list L -> Prop :=
  | reads_leaf l : reads (OLeaf l) [l]
  | reads_group cs ls : Forall2 reads cs ls -> reads (OGroup cs) (List.concat ls)
  | reads_list cs ls : Forall2 reads cs ls -> reads (OList cs) (List.concat ls)
  | reads_other : reads OOther [].
  Inductive occurs (l : L) : fobj L -> Prop :=
  | occurs_leaf : occurs l (OLeaf l)
  | occurs_group cs o : In o cs -> occurs l o -> occurs l (OGroup cs)
  | occurs_list cs o : In o cs -> occurs l o -> occurs l (OList cs).
End Leaves.
