(** Field sets: Set.field_names and its helpers (core/model/set.py:73-125), Project.sets / get_set
    (core/model/project.py:441-460), View.list_sets (core/model/view.py:1049-1056).
    [views]: the views the user may see, in order, each with its sets (a set read from a view carries that
    view's name).  [all_fields v]: "view.alias" of project.fields(view_name=v, ...), used for ALL_FIELDS.
    [enum]: the order in which Python happens to list a set of strings.
    Recursion is bounded by a fuel whose exhaustion is Python's RecursionError. *)
From Verif Require Import PyBase PyStr PySort Core_Model.
Local Open Scope string_scope.
Local Open Scope list_scope.
Local Open Scope nat_scope.

Record set_def := SetDef { st_name : string; st_view : option string; st_fields : list string }.

Section Sets.
  Variable views : list (string * list set_def).
  Variable all_fields : option string -> res (list string).
  Variable enum : list string -> list string.

  Definition nonempty_name (v : option string) : option string := match v with Some "" => None | o => o end.

  (** Project.sets, 441-454: a view that cannot be found has none *)
  Definition project_sets (view_name : option string) : list set_def :=
    match nonempty_name view_name with
    | Some v => match assoc v views with Some l => l | None => [] end
    | None => flat_map snd views
    end.
  (** Project.get_set, 456-461 *)
  Definition get_set (name : string) (view_name : option string) : option set_def :=
    find (fun s => String.eqb (st_name s) name) (project_sets view_name).

  (** _get_view_name, set.py:119-125 *)
  Definition get_view_name (s : set_def) (v : option string) : res string :=
    match v with
    | Some "" => Err QueryError
    | Some v => Ok v
    | None => match nonempty_name (st_view s) with Some w => Ok w | None => Err QueryError end
    end.

  (** all_field_names.index *)
  Fixpoint index (x : string) (l : list string) : nat :=
    match l with [] => 0 | y :: r => if String.eqb x y then 0 else S (index x r) end.

  Section Body.
    Variable names_of : set_def -> res (list string).     (* _set.field_names() *)
    (** _internal_get_fields_from_set, 105-117 *)
    Definition from_set (s : set_def) (set_name : string) : res (list string) :=
      if String.eqb set_name "ALL_FIELDS" then all_fields (st_view s)
      else
        let '(_, v, n) := field_name_parts set_name in
        match get_set n v with None => Ok [] | Some t => names_of t end.
    (** One entry of [fields]: (true, names to add) or (false, names to exclude) *)
    Definition entry (s : set_def) (txt : string) : res (bool * list string) :=
      if contains "*" txt && contains "-" txt then
        l <- from_set s (replace "-" "" (replace "*" "" txt)) ;; Ok (false, l)
      else if contains "*" txt then
        l <- from_set s (replace "*" "" txt) ;; Ok (true, l)
      else if contains "-" txt then
        let '(_, v, n) := field_name_parts (replace "-" "" txt) in
        w <- get_view_name s v ;; Ok (false, [(w ++ "." ++ n)%string])
      else
        let '(_, v, n) := field_name_parts txt in
        w <- get_view_name s v ;; Ok (true, [(w ++ "." ++ n)%string]).
    Definition added (es : list (bool * list string)) : list string := flat_map (fun e : bool * list string => if fst e then snd e else []) es.
    Definition excluded (es : list (bool * list string)) : list string := flat_map (fun e : bool * list string => if fst e then [] else snd e) es.
    Definition names_body (s : set_def) : res (list string) :=
      es <- mapM (entry s) (st_fields s) ;;
      let all := added es in let ex := excluded es in
      Ok (isort (fun x y => Nat.leb (index x all) (index y all)) (enum (filter (fun f => negb (mem f ex)) all))).
  End Body.

  Fixpoint field_names (fuel : nat) (s : set_def) : res (list string) :=
    match fuel with
    | O => Err RecursionError
    | S n => names_body (field_names n) s
    end.
End Sets.
