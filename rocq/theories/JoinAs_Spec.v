(** C08 in declarative form: who requests which copies, what a copy is, what is left of the originals. *)
From Verif Require Import PyBase PyStr JoinAs_Model.
Local Open Scope string_scope.
Local Open Scope list_scope.

(** View [v] requests a copy called [n] through its primary identifier [i]. *)
Definition requests (v : jview) (i : ident) (n : string) : Prop :=
  In i (jv_identifiers v) /\ i_type i = "primary" /\ i_join_as i = Some n.

(** All requests of a project in declaration order. *)
Definition request_of (v : jview) (i : ident) : list (string * (jview * ident)) :=
  match i_join_as i with
  | Some n => if String.eqb (i_type i) "primary" then [(n, (v, i))] else []
  | None => []
  end.
Definition all_requests (vs : list jview) : list (string * (jview * ident)) :=
  flat_map (fun v => flat_map (request_of v) (jv_identifiers v)) vs.

(** The copy called [n] of view [v] made for identifier [i]: same table and other settings, only the
    requesting identifier (without join_as), measures only on request. *)
Record is_copy (n : string) (v : jview) (i : ident) (c : jview) : Prop := {
  copy_name : jv_name c = n;
  copy_rest : jv_rest c = jv_rest v;
  copy_ident : exists j, jv_identifiers c = [j] /\ i_join_as j = None /\ i_name j = i_name i /\ i_type j = i_type i /\ i_rest j = i_rest i;
  copy_fields : forall f, In f (jv_fields c) <-> In f (jv_fields v) /\ (i_include_metrics i = true \/ jf_kind f <> "measure");
  copy_label : jv_label c = match i_label i with Some l => Some l | None => jv_label v end;
  copy_prefix : forall x, i_prefix i = Some x -> jv_field_prefix c = Some x }.

(** What is left of an original: every identifier sharing its name with a requesting one is gone,
    everything else is as it was, in the same order. *)
Definition stripped (v v' : jview) : Prop :=
  jv_name v' = jv_name v /\ jv_fields v' = jv_fields v /\ jv_label v' = jv_label v /\
  jv_field_prefix v' = jv_field_prefix v /\ jv_rest v' = jv_rest v /\
  (exists keep, jv_identifiers v' = filter keep (jv_identifiers v)) /\
  forall j, In j (jv_identifiers v') <->
            In j (jv_identifiers v) /\ ~ exists i n, requests v i n /\ i_name i = i_name j.
