(** The functional primary key of a query: MetricsLayerDesign.functional_pk,
    query_design.py:195-251.  A result is the name of the view whose primary key is used, or None for
    Definitions.does_not_exist.  (The view may itself have no primary key, see Agg_Model.v.) *)
From Verif Require Import PyBase PyStr JoinGraph_Model.
Local Open Scope string_scope.
Local Open Scope list_scope.
Local Open Scope nat_scope.

Definition rel_eqb (a b : rel) : bool :=
  match a, b with
  | M2O, M2O | O2O, O2O | O2M, O2M | M2M, M2M => true
  | _, _ => false
  end.
Definition jrel (j : join) : rel := e_rel (jn_edge j).

(** _derive_primary_key_view, 221-251; [last] is base_sequence[-1] *)
Fixpoint derive_pk_aux (prev : option rel) (last : string) (js : list join) : option string :=
  match js with
  | [] => Some last
  | j :: r =>
      match jrel j with
      | M2M => None
      | O2M => match prev with
               | Some M2O => None
               | _ => derive_pk_aux (Some O2M) (jn_view j) r
               end
      | x => derive_pk_aux (Some x) last r
      end
  end.
Definition derive_primary_key_view (base : string) (js : list join) : option string := derive_pk_aux None base js.

(** functional_pk, 194-219 *)
Definition functional_pk (base : string) (js : list join) : option string :=
  match js with
  | [] => Some base
  | _ =>
      if existsb (fun j => rel_eqb (jrel j) M2M) js then None
      else if forallb (fun j => rel_eqb (jrel j) M2O || rel_eqb (jrel j) O2O) js then Some base
      else derive_primary_key_view base js
  end.
