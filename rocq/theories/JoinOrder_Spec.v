(** What a FROM clause must look like (C13), walks and their weight (C14), and the contracts of the
    two networkx functions used. *)
From Verif Require Import PyBase PyStr JoinGraph_Model JoinGraph_Spec JoinOrder_Model.
Local Open Scope string_scope.
Local Open Scope list_scope.
Local Open Scope nat_scope.

(** Reading the joins left to right: each starts at a view already there, adds a new one and is an
    edge of the join graph. [joins_from g present js final]. *)
Inductive joins_from (g : graph) : list string -> list join -> list string -> Prop :=
| jf_nil present : joins_from g present [] present
| jf_cons present j js final :
    In (jn_base j) present -> ~ In (jn_view j) present ->
    get_edge g (jn_base j) (jn_view j) = Some (jn_edge j) ->
    joins_from g (jn_view j :: present) js final ->
    joins_from g present (j :: js) final.

(** [walk g s rest t w]: s :: rest follows edges from s to t with total weight w. *)
Inductive walk (g : graph) : string -> list string -> string -> nat -> Prop :=
| walk_nil s : walk g s [] s 0
| walk_cons s x rest t w e :
    get_edge g s x = Some e -> walk g x rest t w -> walk g s (x :: rest) t (e_weight e + w).

(** A cheapest walk from [s] to [t]. *)
Definition cheapest (g : graph) (s t : string) (p : list string) : Prop :=
  exists rest w, p = s :: rest /\ walk g s rest t w /\
    forall rest' w', walk g s rest' t w' -> w <= w'.

(** networkx.shortest_path with positive weights *)
Definition shortest_path_contract (g : graph) (sp : string -> string -> option (list string)) : Prop :=
  (forall s t p, sp s t = Some p -> cheapest g s t p) /\
  (forall s t, sp s t = None -> forall rest w, ~ walk g s rest t w).

(** networkx.topological_sort of the line graph: an ordering of the edges in which (u, v) precedes
    (v, w); it fails only when some edges all wait for each other. *)
Definition respects (l : list vpair) : Prop :=
  forall pre e post, l = pre ++ e :: post -> forall e', In e' (e :: post) -> snd e' <> fst e.
Definition stuck (es : list vpair) : Prop :=
  exists s, s <> [] /\ incl s es /\ forall e, In e s -> exists e', In e' s /\ snd e' = fst e.
Definition topological_contract (topo : list vpair -> option (list vpair)) : Prop :=
  (forall es l, topo es = Some l -> Permutation l es /\ respects l) /\
  (forall es, topo es = None -> stuck es).

(** All weights positive and no view joined to itself. *)
Definition positive (g : graph) : Prop := forall u v e, get_edge g u v = Some e -> 0 < e_weight e.
Definition no_loops (g : graph) : Prop := forall u, get_edge g u u = None.
