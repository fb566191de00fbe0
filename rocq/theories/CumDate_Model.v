(** The dates of a query of cumulative metrics: which date each metric is accumulated by, the timeframe of the spine, and the
    columns, groups and conditions of the two sub queries of each metric (core/sql/query_cumulative_metric.py:43-57, 123-165,
    203-354).  Sub queries are described by the columns they select; what rows they give is Cumulative_Model.v.
    Fields are objects that are looked up once and kept (Project.get_field and Project.fields are cached), and 309 changes one
    of them, so the model has a state; it is abstract here, with two instances below. *)
From Coq Require Import List String Ascii Bool Arith.
From Verif Require Import PyBase PyStr PyRefs.
Import ListNotations.
Local Open Scope string_scope.
Local Open Scope list_scope.

(** A field in one timeframe.  A duration is a field without timeframe, under its whole name. *)
Record cfield := CField { c_view : string; c_name : string; c_group : option string; c_measure : bool }.
(** the name with its timeframe; Field.id, field.py:175-179, and Field.alias, 482-494 *)
Definition label (f : cfield) : string := match c_group f with Some g => (c_name f ++ "_" ++ g)%string | None => c_name f end.
Definition id (f : cfield) : string := (c_view f ++ "." ++ label f)%string.
Definition column (f : cfield) : string := (c_view f ++ "_" ++ label f)%string.
Definition in_group (f : cfield) (g : option string) : cfield := CField (c_view f) (c_name f) g (c_measure f).
(** A cumulative metric: its alias, whether its where follows the timeframe (field.py:471-474), the view, the default date of
    the view and the id of its measure, and its cumulative_where *)
Record cmet := CMet { m_alias : string; m_update : bool; m_view : string; m_date : option string; m_measure : string; m_where : option string }.
(** A condition: its field, None for a group of conditions or a literal, and the rest *)
Record cond := Cond { w_field : option string; w_rest : string }.
(** {str}: None is written None *)
Definition show (s : option string) : string := match s with Some s => s | None => "None" end.
Definition spine_ref : string := "date_spine.date".
(** The periods of a date are those of its timeframe *)
Inductive spine := Days | PeriodsOf (f : cfield).
Inductive source := FromSpine | FromColumn (c : string) | Aggregate (c : string).
(** An aggregated sub query: its spine, the column of the date that is compared with the spine, its cumulative_where, its columns
    with their names, its groups, and its conditions on the spine with their timeframe *)
Record aggregate := Agg { a_spine : spine; a_date : string; a_where : option string; a_columns : list (string * source); a_group : list source;
                          a_having : list (option string * cond) }.
Definition from_spine (s : source) : bool := match s with FromSpine => true | _ => false end.
Definition from_column (s : source) : bool := match s with FromColumn _ => true | _ => false end.
Definition is_group (f : cfield) : bool := match c_group f with Some _ => negb (c_measure f) | None => false end.
Definition opt_eqb (a b : option string) : bool := match a, b with Some a, Some b => String.eqb a b | None, None => true | _, _ => false end.
Definition valid : list string := ["date"; "week"; "month"; "quarter"; "year"].
Definition same_field (a b : cfield) : bool := String.eqb (c_name a) (c_name b) && String.eqb (c_view a) (c_view b).
Definition where_refs (w : string) : list string := fields_to_replace (replace (placeholder "cumulative_date") "" w).
Definition prefix (m : cmet) : string := ("subquery_" ++ m_alias m)%string.
Definition date_key (m : cmet) (g : string) : string := (m_view m ++ "." ++ show (m_date m) ++ "_" ++ g)%string.

Section Query.
  Variable S : Type.
  Definition M (A : Type) := S -> res A * S.
  Definition ret {A} (a : A) : M A := fun s => (Ok a, s).
  Definition raise {A} (e : exc) : M A := fun s => (Err e, s).
  Definition andthen {A B} (m : M A) (k : A -> M B) : M B := fun s => match m s with (Ok a, s') => k a s' | (Err e, s') => (Err e, s') end.
  Notation "'do' x <- m ; k" := (andthen m (fun x => k)) (at level 61, x name, m at next level, right associativity).
  Fixpoint each {A B} (f : A -> M B) (l : list A) : M (list B) := match l with [] => ret [] | a :: r => do b <- f a ; do bs <- each f r ; ret (b :: bs) end.
  Fixpoint fold {A B} (f : B -> A -> M B) (l : list A) (b : B) : M B := match l with [] => ret b | a :: r => do c <- f b a ; fold f r c end.
  (** design.get_field, and the assignment field.dimension_group = g to what it returned for a text *)
  Variable get_field : string -> M cfield.
  Variable set_group : string -> option string -> M unit.

  Variable ms : list cmet.            (* self.cumulative_metrics *)
  (** _is_default_date, 277-285 *)
  Definition date_ids : res (list string) :=
    mapM (fun m => match m_date m with
                   | None => Err TypeError
                   | Some d => Ok (if has_char dot d then d else (m_view m ++ "." ++ d)%string)
                   end) ms.
  Definition is_default (f : cfield) : M bool :=
    match date_ids with Ok l => ret (mem (c_view f ++ "." ++ c_name f)%string l) | Err e => raise e end.
  (** default_date_dimension_group, 288-293; the first answer is kept for the whole query *)
  Fixpoint first_group (dims : list string) : M (option string) :=
    match dims with
    | [] => ret (Some "date")
    | d :: r => do f <- get_field d ; do b <- is_default f ; if b : bool then ret (c_group f) else first_group r
    end.

  Section Grouped.
    Variable g : option string.       (* the kept answer *)
    (** _get_default_date, 336-354 *)
    Definition default_date (m : cmet) : M cfield :=
      fun s => match get_field (date_key m (show g)) s with (Ok f, s') => (Ok f, s') | (Err _, s') => (Err AccessDenied, s') end.
    (** date_spine_by_time_frame, 123-142, and the dimensions it leaves *)
    Definition spine_by_time_frame (first : cmet) (dims : list string) : M (spine * list string) :=
      match g with
      | Some t =>
          if negb (mem t valid) then ret (Days, dims ++ [date_key first "date"])
          else if String.eqb t "date" then ret (Days, dims)
          else do f <- default_date first ; ret (PeriodsOf f, dims)
      | None => ret (Days, dims ++ [date_key first "date"])
      end.
    (** the test of 304-308 and 327-331 *)
    Definition changes (m : cmet) (f : cfield) : bool := is_group f && negb (opt_eqb (c_group f) g) && m_update m.
    (** _cumulative_where_fields, 316-334 *)
    Definition where_field (m : cmet) (r : string) : M cfield :=
      do f <- get_field r ;
      if changes m f then get_field (c_view f ++ "." ++ c_name f ++ "_" ++ show g)%string else ret f.
    Definition field_of (w : cond) : M cfield := match w_field w with Some n => get_field n | None => raise KeyError end.
    (** cumulative_subquery, 144-165: the ids of its dimensions and its conditions; its metric is the measure *)
    Definition subquery (m : cmet) (dims : list string) (where_ : list cond) : M (list string * list cond) :=
      do fs <- each get_field dims ;
      do d <- default_date m ;
      let fs1 := if existsb (same_field d) fs then fs else fs ++ [d] in
      do ws <- (match m_where m with
                | Some w => if String.eqb w "" then ret [] else each (where_field m) (where_refs w)
                | None => ret []
                end) ;
      do kept <- each (fun w => do f <- field_of w ; do b <- is_default f ; ret (if b : bool then [] else [w])) where_ ;
      ret (map id (fs1 ++ ws), List.concat kept).
    (** _replace_cumulative_where, 295-314.  The timeframe is written to the field without being looked up. *)
    Definition replace_where (m : cmet) (w : string) : M string :=
      fold (fun t r =>
              do f <- get_field r ;
              do f' <- (if changes m f then do _ <- set_group r g ; ret (in_group f g) else ret f) ;
              ret (replace (placeholder r) (prefix m ++ "." ++ column f')%string t))
           (where_refs w) (replace (placeholder "cumulative_date") spine_ref w).
    (** aggregate_cumulative_subquery, 203-275 *)
    Definition source_of (f : cfield) : M source :=
      do b <- is_default f ; ret (if b : bool then FromSpine else if c_measure f then Aggregate (column f) else FromColumn (column f)).
    (** a condition on a default date becomes one on the spine, in the timeframe of its field; the date of the metric must have
        that timeframe, 250-264 *)
    Definition having_of (d : cfield) (w : cond) : M (list (option string * cond)) :=
      do f <- field_of w ; do b <- is_default f ;
      if b : bool then do _ <- get_field (id (in_group d (c_group f))) ; ret [(c_group f, w)] else ret [].
    Definition aggregated (first m : cmet) (dims : list string) (where_ : list cond) : M (aggregate * list string) :=
      do d <- default_date m ;
      do sp <- spine_by_time_frame first dims ;
      do cw <- (match m_where m with
                | Some w => if String.eqb w "" then ret None else do t <- replace_where m w ; ret (Some t)
                | None => ret None
                end) ;
      do cs <- each (fun n => do f <- get_field n ; do s <- source_of f ; ret (column f, s)) (m_measure m :: snd sp) ;
      do hs <- each (having_of d) where_ ;
      let present := existsb (fun c => from_spine (snd c)) cs in
      let groups := filter from_column (map snd cs) ++ (if present then [FromSpine] else []) in
      ret (Agg (fst sp) (column d) cw cs groups (if present then List.concat hs else []), snd sp).
    (** get_query, 50-57: the sub queries of the metrics in order; the dimensions are those the previous metric left *)
    Fixpoint sub_queries (first : cmet) (todo : list cmet) (dims : list string) (where_ : list cond)
      : M (list (list string * list cond * aggregate) * list string) :=
      match todo with
      | [] => ret ([], dims)
      | m :: r =>
          do s <- subquery m dims where_ ;
          do a <- aggregated first m dims where_ ;
          do q <- sub_queries first r (snd a) where_ ;
          ret ((fst s, snd s, fst a) :: fst q, snd q)
      end.
  End Grouped.
  (** the whole of it, 43-57: sub queries and final dimensions *)
  Definition plan (dims : list string) (where_ : list cond) : M (list (list string * list cond * aggregate) * list string) :=
    match ms with
    | [] => ret ([], dims)
    | first :: _ => do g <- first_group dims ; sub_queries g first ms dims where_
    end.
End Query.

(** ** The objects of a project: Project.fields and Project.get_field, project.py:462-506, 540-568 *)
(** the fields kept for a lookup that names a view ([true]) and for one that does not; the answers kept, by the text asked *)
Record session := Session { s_objects : bool -> list cfield; s_kept : list (string * (bool * nat)) }.
(** a third part before the view is ignored; Field.equal, field.py:879-892, for a field with its timeframe.  The field called
    count that every view has is not found here unless it is declared. *)
Definition asked (s : string) : bool := match field_name_parts s with (_, Some _, _) => true | _ => false end.
Definition matches (s : string) (f : cfield) : bool :=
  let '(_, v, n) := field_name_parts s in (match v with Some v => String.eqb (c_view f) v | None => true end) && String.eqb (label f) (lower n).
Definition found (s : string) (l : list cfield) : res nat :=
  match filter (fun i => match nth_error l i with Some f => matches s f | None => false end) (seq 0 (List.length l)) with
  | [i] => Ok i
  | [] => Err AccessDenied
  | _ => Err QueryError
  end.
Definition locate (s : string) (x : session) : res (bool * nat) * session :=
  match assoc s (s_kept x) with
  | Some i => (Ok i, x)
  | None => match found s (s_objects x (asked s)) with
            | Ok i => (Ok (asked s, i), Session (s_objects x) ((s, (asked s, i)) :: s_kept x))
            | Err e => (Err e, x)
            end
  end.
Definition object (x : session) (i : bool * nat) : res cfield := match nth_error (s_objects x (fst i)) (snd i) with Some f => Ok f | None => Err IndexError end.
Definition kept_field (s : string) : M session cfield :=
  fun x => match locate s x with (Ok i, x') => (object x' i, x') | (Err e, x') => (Err e, x') end.
Fixpoint write (i : nat) (f : cfield -> cfield) (l : list cfield) : list cfield :=
  match l, i with [], _ => [] | a :: r, 0 => f a :: r | a :: r, Datatypes.S i => a :: write i f r end.
Definition write_group (s : string) (g : option string) : M session unit :=
  fun x => match locate s x with
           | (Ok (b, i), x') => (Ok tt, Session (fun c => if Bool.eqb c b then write i (fun f => in_group f g) (s_objects x' c) else s_objects x' c) (s_kept x'))
           | (Err e, x') => (Err e, x')
           end.
(** nothing looked up yet *)
Definition fresh (fields : list cfield) : session := Session (fun _ => fields) [].
Definition run_plan (ms : list cmet) (dims : list string) (where_ : list cond) (x : session) := plan session kept_field write_group ms dims where_ x.

(** The instance without memory, in which every look-up reads the project as it is and writes are lost; used to state what the
    answers should be *)
Definition plain_field (fields : list cfield) (s : string) : M unit cfield :=
  fun u => (match filter (matches s) fields with [f] => Ok f | [] => Err AccessDenied | _ => Err QueryError end, u).
Definition plain_plan (fields : list cfield) (ms : list cmet) (dims : list string) (where_ : list cond) : res (list (list string * list cond * aggregate) * list string) :=
  fst (plan unit (plain_field fields) (fun _ _ u => (Ok tt, u)) ms dims where_ tt).

(** The views the first sub query joins: the fields of the query that are no measures and the measure itself, _subquery, 185-189
    (query_design.py:185-192).  For fields whose SQL stays within their view, and without access filters. *)
Definition joined (fields : list cfield) (m : cmet) (dims : list string) (where_ : list cond) : res (list string) :=
  fs <- mapM (fun n => fst (plain_field fields n tt)) dims ;;
  ws <- mapM (fun w => fst (field_of unit (plain_field fields) w tt)) where_ ;;
  mf <- fst (plain_field fields (m_measure m) tt) ;;
  Ok (dedup (map c_view (filter (fun f => negb (c_measure f)) (fs ++ ws) ++ [mf]))).
