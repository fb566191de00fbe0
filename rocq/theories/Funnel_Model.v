(** Funnel queries: FunnelQuery.get_query (core/sql/query_funnel.py:38-79), the step queries (113-124), the
    conditions and the window (186-221), parse_funnel (core/sql/single_query_resolve.py:209-217), the event date
    (164-180).  The base query (126-149: the ungrouped query of the metrics, the dimensions, the event date, the
    customer field and the fields of the steps) is a list of rows here; how it is made is in other models. *)
From Verif Require Import PyBase PyStr Core_Model Duration_Model.
Local Open Scope string_scope.
Local Open Scope list_scope.
Local Open Scope Z_scope.

Section Funnel.
  (** The other columns of a base row *)
  Variable D : Type.
  Record event := Event { ev_person : option string; ev_time : option Z; ev_data : D }.
  (** A step: a list of conditions on base columns, all of which hold (187-199; pypika's Criterion.all), or a
      text (200-206), here its top-level alternatives: texts are not put in parentheses.  A text names the columns
      by table, not by base column, which the model does not see. *)
  Inductive fstep := SConditions (cs : list (D -> bool)) | SText (first : D -> bool) (others : list (D -> bool)).
  (** value of the duration expression on two times *)
  Variable diff : Z -> Z -> Z.
  Variable window : Z.

  (** A row of a step query: the base row and step_1_time *)
  Record srow := SRow { sr_event : event; sr_first : option Z }.
  Definition null_lt (a b : option Z) : bool := match a, b with Some a, Some b => a <? b | _, _ => false end.
  Definition null_eq (a b : option string) : bool := match a, b with Some a, Some b => String.eqb a b | _, _ => false end.
  (** _within_where, 212-221 *)
  Definition in_window (first now : option Z) : bool :=
    match first, now with Some s, Some e => diff s e <=? window | _, _ => false end.
  (** WHERE c1 AND ... AND window; for a text a OR b OR ... OR (z AND window) *)
  Fixpoint alternatives (c : D -> bool) (cs : list (D -> bool)) (d : D) (w : bool) : bool :=
    match cs with [] => c d && w | c' :: r => c d || alternatives c' r d w end.
  Definition where_holds (s : fstep) (d : D) (w : bool) : bool :=
    match s with SConditions cs => forallb (fun c => c d) cs && w | SText c cs => alternatives c cs d w end.

  (** get_step_1_cte, 113-114: no window *)
  Definition step_1 (s : fstep) (base : list event) : list srow :=
    map (fun e => SRow e (ev_time e)) (filter (fun e => where_holds s (ev_data e) true) base).
  (** get_step_n_cte, 113-124: base JOIN previous ON person and previous time < base time *)
  Definition step_n (s : fstep) (base : list event) (prev : list srow) : list srow :=
    flat_map (fun e =>
      flat_map (fun p =>
        if null_eq (ev_person e) (ev_person (sr_event p)) && null_lt (ev_time (sr_event p)) (ev_time e)
           && where_holds s (ev_data e) (in_window (sr_first p) (ev_time e))
        then [SRow e (sr_first p)] else []) prev) base.
  (** 45-66 *)
  Fixpoint later_steps (ss : list fstep) (base : list event) (prev : list srow) : list (list srow) :=
    match ss with [] => [] | s :: r => let q := step_n s base prev in q :: later_steps r base q end.
  Definition step_queries (ss : list fstep) (base : list event) : res (list (list srow)) :=
    match ss with
    | [] => Err UnboundLocal        (* union_cte, 72 *)
    | s :: r => let q := step_1 s base in Ok (q :: later_steps r base q)
    end.
End Funnel.
Arguments Event {D}. Arguments ev_person {D}. Arguments ev_time {D}. Arguments ev_data {D}.
Arguments SRow {D}. Arguments sr_event {D}. Arguments sr_first {D}.
Arguments SConditions {D}. Arguments SText {D}. Arguments where_holds {D}. Arguments alternatives {D}.
Arguments step_1 {D}. Arguments step_n {D}. Arguments later_steps {D}. Arguments step_queries {D}.

(** The result: one part per step, grouped by the dimensions (62-70, 84-101).  Here the rows of the groups, on which
    the metrics are computed; without dimensions there is one group.  The metrics are computed with a primary
    key that does not exist (92), i.e. over distinct primary keys of their view (C05). *)
Definition keys_of {D} (key : D -> option string) (l : list (srow D)) : list string :=
  dedup (flat_map (fun r => match key (ev_data (sr_event r)) with Some k => [k] | None => [] end) l).
Definition persons {D} (l : list (srow D)) : list string :=
  dedup (flat_map (fun r => match ev_person (sr_event r) with Some k => [k] | None => [] end) l).
Definition group_rows {D} (dims : D -> string) (g : string) (l : list (srow D)) : list (srow D) :=
  filter (fun r => String.eqb (dims (ev_data (sr_event r))) g) l.

(** parse_funnel, single_query_resolve.py:209-217: the keys of the dict *)
Definition parse_funnel (keys : list string) : res bool :=
  match keys with [] => Ok false | _ => if mem "steps" keys && mem "within" keys then Ok true else Err QueryError end.

(** get_event_date, 164-180: of the view of the funnel, or of the views of the metrics (having metrics are added
    after this): (view, default date).  None is a view without default date. *)
Section EventDate.
  Variable default_date : string -> option string.      (* view name to default_date *)
  Definition date_of_view (v : string) : res (string * string) :=
    match default_date v with
    | None => Err TypeError                              (* "." in None *)
    | Some d => if has_char dot d then match split_char dot d with a :: r => Ok (a, List.last r a) | [] => Ok (v, d) end else Ok (v, d)
    end.
  Definition event_date (view_name : option string) (metric_views : list string) : res string :=
    match view_name with
    | Some v => match default_date v with Some d => Ok (v ++ "." ++ d ++ "_raw")%string | None => Ok (v ++ ".None_raw")%string end
    | None =>
        ds <- mapM date_of_view metric_views ;;
        match ds with [(v, d)] => Ok (v ++ "." ++ d ++ "_raw")%string | _ => Err QueryError end
    end.
End EventDate.
