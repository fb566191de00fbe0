(** C09-C12, what the joins of a set of views are, stated on the declarations only. *)
From Verif Require Import PyBase PyStr JoinGraph_Model.
Local Open Scope string_scope.
Local Open Scope list_scope.
Local Open Scope nat_scope.

(** The relationship between an identifier on the left and one on the right. *)
Inductive related : itype -> itype -> rel -> Prop :=
| fk_pk : related TForeign TPrimary M2O
| pk_pk : related TPrimary TPrimary O2O
| pk_fk : related TPrimary TForeign O2M
| fk_fk : related TForeign TForeign M2M.

(** Many on the right for one on the left. *)
Definition multiplies (r : rel) : Prop := r = O2M \/ r = M2M.

(** one_to_one before many_to_one before one_to_many before many_to_many *)
Definition rank (r : rel) : nat := match r with O2O => 1 | M2O => 2 | O2M => 3 | M2M => 4 end.

Definition view_named (vs : list gview) (n : string) (v : gview) : Prop := In v vs /\ gv_name v = n.
(** The first identifier of that name in the view *)
Definition first_named (v : gview) (n : string) (i : jident) : Prop :=
  exists pre post, gv_ids v = pre ++ i :: post /\ ji_name i = n /\ ~ In n (map ji_name pre).
Definition admits (only : list string) (v : string) : Prop := only = [] \/ In v only.

(** Identifier [i] of view [a] meets identifier [j] of view [b]: same name, different views, neither
    side's only_join excludes the other. *)
Definition meets (vs : list gview) (a b : string) (i j : jident) : Prop :=
  a <> b /\
  exists va vb, view_named vs a va /\ view_named vs b vb /\ In i (gv_ids va) /\
    first_named vb (ji_name i) j /\
    (exists k, In k (gv_ids vb) /\ ji_name k = ji_name i /\ ji_type k <> TJoin) /\
    admits (ji_only_join i) b /\ admits (ji_only_join j) a.

(** A permitted identifier join from [a] to [b] of relationship [r] *)
Definition identifier_join (vs : list gview) (a b : string) (r : rel) (i j : jident) : Prop :=
  meets vs a b i j /\ related (ji_type i) (ji_type j) r /\ (multiplies r -> In b (ji_fanouts i)).

(** All explicit joins in declaration order: as written, and reversed unless that multiplies rows. *)
Definition reversed (r : rel) : rel := match r with M2O => O2M | O2M => M2O | x => x end.
Definition declarations (v : gview) (i : jident) : list (string * string * (rel * string)) :=
  match ji_type i with
  | TJoin => (gv_name v, ji_ref i, (ji_rel i, ji_sql_on i)) ::
             match reversed (ji_rel i) with
             | M2O => [(ji_ref i, gv_name v, (M2O, ji_sql_on i))]
             | O2O => [(ji_ref i, gv_name v, (O2O, ji_sql_on i))]
             | _ => []
             end
  | _ => []
  end.
Definition all_declarations (vs : list gview) : list (string * string * (rel * string)) :=
  flat_map (fun v => flat_map (declarations v) (gv_ids v)) vs.
(** The last explicit join from [a] to [b] is the one that counts. *)
Definition explicit_join (vs : list gview) (a b : string) (r : rel) (sql_on : string) : Prop :=
  exists pre post, all_declarations vs = pre ++ (a, b, (r, sql_on)) :: post /\
                   forall x, ~ In (a, b, x) post.

Definition weight_of (r : rel) : nat := rank r.

(** Directed reachability along the edges of a graph *)
Definition has_edge (g : graph) (u v : string) : Prop := exists e, get_edge g u v = Some e.
Inductive reaches (g : graph) : string -> string -> Prop :=
| reaches_refl u : In u (g_nodes g) -> reaches g u u
| reaches_step u v w : has_edge g u v -> reaches g v w -> reaches g u w.
Definition mutually (g : graph) (u v : string) : Prop := reaches g u v /\ reaches g v u.

(** Every edge ends in a node and nodes are distinct (true of every graph the code builds). *)
Definition wf_graph (g : graph) : Prop :=
  NoDup (g_nodes g) /\ (forall u a, In (u, a) g -> NoDup (map fst a)) /\
  forall u v, has_edge g u v -> In v (g_nodes g).
