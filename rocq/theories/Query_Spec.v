(** What the database answers to a generated query, and what the answer should be. *)
From Coq Require Import List String Ascii Bool QArith.
From Verif Require Import PyBase PyStr JoinGraph_Model Rel_Model Rel_Spec Agg_Model Agg_Spec Clause_Model Clause_Spec Query_Model.
Import ListNotations.
Local Open Scope string_scope.
Local Open Scope list_scope.
Local Open Scope nat_scope.

Inductive cell := CDim (x : option string) | CNum (x : option Q).
Definition row_key_dec (a b : list (option string)) : {a = b} + {a <> b}.
Proof. repeat decide equality. Defined.
Definition key_is (k k' : list (option string)) : bool := if row_key_dec k k' then true else false.

(** the kind of join of an edge, query_base.py:50-68; CROSS JOIN is not covered by the row semantics *)
Definition kind_of (j : join) : jkind :=
  if String.eqb (e_type (jn_edge j)) "inner" then KInner
  else if String.eqb (e_type (jn_edge j)) "full_outer" then KFull else KLeft.

Section Meaning.
  Context {V C : Type}.
  (** the tables and the meaning of the texts in the project *)
  Variable tab : string -> list nat.
  Variable on : join -> nat -> nat -> bool.
  Variable dim : string -> crow -> option string.          (* a dimension's SQL on a row of the FROM clause *)
  Variable key : string -> nat -> option string.           (* a view's primary key *)
  Variable num : string -> nat -> option Q.                (* the SQL inside an aggregate, which reads its own view *)
  Variable arith : string -> list (option Q) -> option Q.  (* the SQL of a measure of type number, given its references *)
  Variable dim_holds : C -> option string -> tv.           (* a comparison with a value *)
  Variable num_holds : C -> option Q -> tv.
  Variable hash : sym -> string -> Z.

  (** ** The database *)
  Fixpoint value (e : sexp) (rows : list crow) : option Q :=
    match e with
    | EDim _ => None
    | EAgg v id a => eval_agg hash a (map (see v (key v) (num id)) rows)
    | ENum id args => arith id (map (fun x => value x rows) args)
    end.
  Definition dim_value (e : sexp) (c : crow) : option string := match e with EDim id => dim id c | _ => None end.
  Definition cell_of (rows : list crow) (e : sexp) : cell :=
    match e with
    | EDim id => CDim (match rows with c :: _ => dim id c | [] => None end)
    | _ => CNum (value e rows)
    end.
  (** a comparison in WHERE, on a row, and in HAVING, on a group *)
  Definition row_truth (c : crow) (a : sexp * C) : tv := match fst a with EDim id => dim_holds (snd a) (dim id c) | _ => None end.
  Definition group_truth (rows : list crow) (a : sexp * C) : tv := num_holds (snd a) (value (fst a) rows).
  (** [keep] and [hold] are the rows and groups for which SQL reads the clause as true *)
  Definition reads_as {X} (truth : X -> sexp * C -> tv) (clause : option (list (tok (sexp * C)))) (keep : X -> bool) : Prop :=
    forall x, keep x = true <-> match clause with None => True | Some ts => sql_or (truth x) ts (Some true) end.

  Definition from_rows (q : qsql C) : list crow := joined tab on kind_of (s_base q) (s_joins q).
  Definition key_of (gs : list sexp) (c : crow) : list (option string) := map (fun e => dim_value e c) gs.
  Definition groups (gs : list sexp) (rows : list crow) : list (list (option string)) :=
    match gs with [] => [[]] | _ => nodup row_key_dec (map (key_of gs) rows) end.
  Definition run (keep : crow -> bool) (hold : list crow -> bool) (q : qsql C) : list (list cell) :=
    let rows := filter keep (from_rows q) in
    flat_map (fun k =>
        let grp := filter (fun c => key_is (key_of (s_group q) c) k) rows in
        if hold grp then [map (cell_of grp) (s_select q)] else [])
      (groups (s_group q) rows).

  (** ** The answer asked for *)
  Variable get_field : string -> res qfield.
  Variable compare : qfield -> V -> res (list C).
  Variable access : string -> res (list (string * list C)).

  Definition dim_named (n : string) (c : crow) : option string := match get_field n with Ok f => dim (qf_id f) c | Err _ => None end.
  (** a measure over the rows of its own view among [rows], each once *)
  Fixpoint measure (fuel : nat) (rows : list crow) (n : string) : option Q :=
    match get_field n with
    | Err _ => None
    | Ok f => match qf_body f with
              | BDim => None
              | BAgg t _ => own_value t (own_of (qf_view f) (key (qf_view f)) (num (qf_id f)) rows)
              | BNum => match fuel with O => None | S fuel => arith (qf_id f) (map (measure fuel rows) (qf_refs f)) end
              end
    end.
  Definition condition {X} (holds : C -> X -> tv) (l : string * V) (x : X) : tv :=
    match get_field (fst l) with
    | Ok f => match compare f (snd l) with Ok cs => all3 (map (fun c => holds c x) cs) | Err _ => None end
    | Err _ => None
    end.
  (** a filter tree on a row, and on a group *)
  Definition row_filter (c : crow) (t : ftree (sexp * C) (string * V)) : tv :=
    meaning (fun l => condition dim_holds l (dim_named (fst l) c)) (fun _ => None) t.
  Definition group_filter (fuel : nat) (rows : list crow) (t : ftree (sexp * C) (string * V)) : tv :=
    meaning (fun l => condition num_holds l (measure fuel rows (fst l))) (fun _ => None) t.
  (** the views the SQL of a field mentions *)
  Inductive mentions : string -> string -> Prop :=
  | mentions_own n f : get_field n = Ok f -> mentions n (qf_view f)
  | mentions_ref n f r v : get_field n = Ok f -> In r (qf_refs f) -> mentions r v -> mentions n v.
  (** a field of the request: listed, or named in a condition or in the order *)
  Definition asked (r : request V C) (n : string) : Prop :=
    In n (rq_metrics r) \/ In n (rq_dimensions r) \/ In n (rq_order r) \/
    exists t, (In t (rq_where r) \/ In t (rq_having r)) /\ In n (tree_fields t).
  (** the access filters of the views of those fields *)
  Definition permitted (r : request V C) (c : crow) : Prop :=
    forall n v fs a cs x, asked r n -> mentions n v -> access v = Ok fs -> In (a, cs) fs -> In x cs ->
      dim_holds x (dim_named a c) = Some true.
End Meaning.
