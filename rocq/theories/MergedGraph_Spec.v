(** Which fields belong to which merged result, stated over the project only. *)
From Coq Require Import List String Bool.
From Verif Require Import PyBase JoinGraph_Model ModelMap_Model MergedGraph_Model.
Import ListNotations.
Local Open Scope string_scope.
Local Open Scope list_scope.

(** [m] is a measure of the project with a date *)
Definition dated_measure (P : mproj) (m : pfield) : Prop :=
  In m (mp_fields P) /\ pf_measure m = true /\ pf_canon m <> None.
(** the user can see the date [c] of [m], and it has timeframe [tf] *)
Definition offers (P : mproj) (m : pfield) (c : canon) (tf : string) : Prop :=
  In m (mp_fields P) /\ pf_measure m = true /\
  exists d tfs, pf_canon m = Some d /\ mp_by_name P d = Ok c /\ cn_frames c = Some tfs /\ In tf tfs.
Definition in_graph (P : mproj) (m : pfield) (h : string) : Prop := join_graph_hash (mp_graph P) (pf_view m) = Ok h.
Definition in_use (P : mproj) (h : string) : Prop := exists m, dated_measure P m /\ in_graph P m h.

(** A merged result: all measures at one timeframe, or two join graphs at one timeframe *)
Inductive node := NCore (tf : string) | NPair (a b tf : string).
Definition node_name (n : node) : string :=
  match n with
  | NCore tf => ("canon_date_core_" ++ tf)%string
  | NPair a b tf => (a ++ "_" ++ b ++ "_" ++ tf)%string
  end.
(** the two join graphs of a pair, in alphabetical order *)
Definition pair_in_use (P : mproj) (a b : string) : Prop := in_use P a /\ in_use P b /\ String.compare a b = Lt.
Definition covers (P : mproj) (n : node) (m : pfield) (c : canon) : Prop :=
  match n with
  | NCore tf => offers P m c tf
  | NPair a b tf => pair_in_use P a b /\ offers P m c tf /\ (in_graph P m a \/ in_graph P m b)
  end.

Inductive member (P : mproj) (maps : mapping) : node -> string -> Prop :=
| mb_measure n m c : covers P n m c -> member P maps n (pf_id m)
| mb_date n m c tf : covers P n m c -> (match n with NCore t | NPair _ _ t => tf = t end) ->
    member P maps n (cn_view c ++ "." ++ cn_name c ++ "_" ++ tf)
| mb_view a b tf m c v ids i : covers P (NPair a b tf) m c ->
    In v (mp_views P) -> In a (weak_join_graph_hashes (mp_graph P) v) -> In b (weak_join_graph_hashes (mp_graph P) v) ->
    mp_expanded P v = Ok ids -> In i ids -> member P maps (NPair a b tf) i
| mb_map a b tf m c from e r i : covers P (NPair a b tf) m c ->
    In (from, e) maps -> en_canon e = false -> In r (en_refs e) ->
    (en_hash e = a \/ en_hash e = b) -> (rf_hash r = a \/ rf_hash r = b) ->
    (mp_id P from = Ok i \/ mp_id P (rf_field r) = Ok i) -> member P maps (NPair a b tf) i.

(** The measure [m] of join graph [h] can be joined from no other graph and shares its id with no other thing *)
Definition confined (P : mproj) (maps : mapping) (m : pfield) (h : string) : Prop :=
  in_graph P m h /\ weak_join_graph_hashes (mp_graph P) (pf_view m) = [h] /\
  (forall m', In m' (mp_fields P) -> pf_id m' = pf_id m -> pf_view m' = pf_view m) /\
  (forall d c tf, mp_by_name P d = Ok c -> pf_id m <> (cn_view c ++ "." ++ cn_name c ++ "_" ++ tf)%string) /\
  (forall v ids, mp_expanded P v = Ok ids -> In (pf_id m) ids -> v = pf_view m) /\
  (forall from e r, In (from, e) maps -> In r (en_refs e) -> mp_id P from <> Ok (pf_id m) /\ mp_id P (rf_field r) <> Ok (pf_id m)).
(** [x] is the id of neither a measure nor a date *)
Definition plain_dimension (P : mproj) (x : string) : Prop :=
  (forall m, In m (mp_fields P) -> pf_measure m = true -> pf_id m <> x) /\
  (forall d c tf, mp_by_name P d = Ok c -> x <> (cn_view c ++ "." ++ cn_name c ++ "_" ++ tf)%string).
