(** What the merged query returns, for C32: SQL's FULL OUTER JOIN and CROSS JOIN over arbitrary sub
    query results.  A row gives each of its columns a value or NULL (None); values are integers; CAST
    AS TIMESTAMP is taken to keep the value. *)
From Verif Require Import PyBase PyStr PySort Merged_Model.
From Coq Require Import ZArith.
Local Open Scope string_scope.
Local Open Scope list_scope.
Local Open Scope nat_scope.

Notation row := (string -> option Z).
(** A joined row holds at most one row of each sub query; a missing one reads as NULLs. *)
Notation jrow := (list (string * (string -> option Z))).

Definition col_val (j : jrow) (h c : string) : option Z :=
  match assoc h j with Some r => r c | None => None end.
Fixpoint eval (j : jrow) (e : sqle) : option Z :=
  match e with
  | SCol h c => col_val j h c
  | SIfNull a b => match eval j a with Some v => Some v | None => eval j b end
  end.
(** NULL equals nothing *)
Definition sql_eq (a b : option Z) : bool :=
  match a, b with Some x, Some y => Z.eqb x y | _, _ => false end.
Definition on_holds (on : option (list meq)) (j : jrow) : bool :=
  match on with
  | None => true
  | Some l => forallb (fun q => sql_eq (eval j (me_left q)) (eval j (me_right q))) l
  end.

Section Rows.
  Variable tab : string -> list row.

  Definition full_join (on : option (list meq)) (h : string) (L : list jrow) : list jrow :=
    flat_map (fun j => match filter (fun r => on_holds on (j ++ [(h, r)])) (tab h) with
                       | [] => [j]
                       | ms => map (fun r => j ++ [(h, r)]) ms
                       end) L
    ++ map (fun r => [(h, r)])
         (filter (fun r => negb (existsb (fun j => on_holds on (j ++ [(h, r)])) L)) (tab h)).
  Definition cross_join (h : string) (L : list jrow) : list jrow :=
    flat_map (fun j => map (fun r => j ++ [(h, r)]) (tab h)) L.
  Definition step_join (L : list jrow) (m : mjoin) : list jrow :=
    match m with
    | MFrom h => map (fun r => [(h, r)]) (tab h)
    | MCross h => cross_join h L
    | MOuter h on => full_join on h L
    end.
  Definition rows_of (js : list mjoin) : list jrow := fold_left step_join js [].
End Rows.

(** The dimension values of a row of sub query [h] *)
Definition key_of (dims : string -> list mcol) (h : string) (r : row) : list (option Z) :=
  map (fun f => r (mc_alias f)) (dims h).
Definition nonnull (k : list (option Z)) : Prop := forall v, In v k -> v <> None.
Fixpoint key_eqb (a b : list (option Z)) : bool :=
  match a, b with
  | [], [] => true
  | Some x :: a', Some y :: b' => Z.eqb x y && key_eqb a' b'
  | None :: a', None :: b' => key_eqb a' b'
  | _, _ => false
  end.
(** [j] is a row for dimension values [k] *)
Definition for_key (dims : string -> list mcol) (k : list (option Z)) (j : jrow) : bool :=
  forallb (fun hr => key_eqb (key_of dims (fst hr) (snd hr)) k) j.
