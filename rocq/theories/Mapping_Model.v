(** Mapped names of a query: SQLQueryResolver._resolve_mapped_fields and its helpers
    (core/sql/resolve.py:126-406), parse_field_names (core/sql/single_query_resolve.py:189-208, 223-232).
    Not modelled: the text of error messages, the keys of a condition other than "field" and "conditions"
    (kept in [R], untouched). *)
From Verif Require Import PyBase PyStr PySort Core_Model.
Local Open Scope string_scope.
Local Open Scope list_scope.
Local Open Scope nat_scope.

(** What the code uses of a field: id(), join_graphs(), canon_date *)
Record mfld := MFld { fl_id : string; fl_graphs : list string; fl_canon : option string }.
(** project.get_mapped_field(...): "name" and "fields" *)
Record mapping := Mapping { mp_name : string; mp_fields : list string }.

Section Mapped.
  Variable R : Type.
  Variable has_group_by : R -> bool.
  (** A condition or sort dict: its "field" and "conditions" keys, if present *)
  Inductive robj := RDict (field : option string) (conds : option (list robj)) (rest : R).
  (** A clause: text, nothing, or a list of dicts *)
  Inductive clause := CText (t : string) | CNone | CList (l : list robj).

  Variable get_field : string -> res mfld.
  Variable get_mapped : string -> option mapping.
  Variable special : string -> bool.                  (* name in model.special_mapping_values *)
  Variable n_measures : string -> res nat.            (* measures of the view of a canon date, 194-200 *)
  Variable enum : list string -> list string.         (* listing order of a Python set *)
  Variable idents : string -> list string.            (* parse_identifiers_from_clause *)

  (** flatten_filters, core/utils.py:19-34 *)
  Fixpoint leaves (o : robj) : list robj :=
    match o with
    | RDict _ (Some cs) _ => flat_map leaves cs
    | RDict _ None _ => [o]
    end.
  (** parse_identifiers_from_dicts *)
  Definition leaf_name (o : robj) : res (list string) :=
    match o with RDict f _ r => if has_group_by r then Ok [] else match f with Some x => Ok [x] | None => Err QueryError end end.
  Definition clause_fields (c : clause) : res (list string) :=
    match c with
    | CNone => Ok []
    | CText t => Ok (idents t)
    | CList l => concatM leaf_name (flat_map leaves l)
    end.

  Record query := Query { q_metrics : list string; q_dims : list string; q_where : clause; q_having : clause; q_order : clause; q_forced : bool }.

  (** _replace_dict_or_literal, 392-406 *)
  Fixpoint replace_obj (name id : string) (o : robj) : robj :=
    match o with
    | RDict (Some x) cs r => RDict (Some (if String.eqb x name then id else x)) cs r
    | RDict None (Some cs) r => RDict None (Some (map (replace_obj name id) cs)) r
    | RDict None None r => RDict None None r
    end.
  Definition replace_clause (name id : string) (c : clause) : clause :=
    match c with
    | CText t => CText (replace name id t)
    | CNone => CNone
    | CList l => CList (map (replace_obj name id) l)
    end.
  (** l[l.index(x)] = y *)
  Fixpoint replace_first (x y : string) (l : list string) : list string :=
    match l with [] => [] | z :: r => if String.eqb z x then y :: r else z :: replace_first x y r end.

  (** The names parse_field_names found at the start, 128-133 *)
  Record names := Names { n_where : list string; n_having : list string; n_order : list string; n_all : list string }.
  (** _replace_mapped_field, 374-390 *)
  Definition replace_mapped (ns : names) (name : string) (f : mfld) (q : query) : res query :=
    let q' := Query (if mem name (q_metrics q) then replace_first name (fl_id f) (q_metrics q) else q_metrics q)
                    (if mem name (q_dims q) then replace_first name (fl_id f) (q_dims q) else q_dims q)
                    (if mem name (n_where ns) then replace_clause name (fl_id f) (q_where q) else q_where q)
                    (if mem name (n_having ns) then replace_clause name (fl_id f) (q_having q) else q_having q)
                    (if mem name (n_order ns) then replace_clause name (fl_id f) (q_order q) else q_order q)
                    (q_forced q) in
    if mem name (n_all ns) then Ok q' else Err QueryError.

  (** _join_graphs_by_type, 331-334: set.intersection() of nothing is a TypeError *)
  Definition lookup := list (string * list string).
  Definition usable (l : lookup) : res (list string) :=
    match l with
    | [] => Err TypeError
    | (_, g) :: r => Ok (filter (fun x => forallb (fun e : string * list string => mem x (snd e)) r) g)
    end.
  Definition joinable_of (gs : list string) : list string := filter (fun g => negb (contains "merged_result" g)) gs.
  (** _handle_invalid_merged_result, 336-372; the joinable graphs are among the mergeable ones *)
  Definition handle_invalid (l : lookup) (mergeable : list string) : res unit :=
    match mergeable with
    | _ :: _ => Ok tt
    | [] =>
        (fix go (ks : lookup) : res unit :=
           match ks with
           | [] => Err QueryError
           | (k, _) :: r =>
               u <- usable (filter (fun e : string * list string => negb (String.eqb (fst e) k)) l) ;;
               match u with [] => go r | _ => Err QueryError end
           end) l
    end.
  (** determine_field_to_replace_with, 314-329 *)
  Definition meets (gs hs : list string) : bool := existsb (fun g => mem g hs) gs.
  Fixpoint determine_aux (fields : list string) (joinable mergeable : list string) (js ms : list mfld) : res mfld :=
    match fields with
    | [] => match js, ms with f :: _, _ => Ok f | [], f :: _ => Ok f | [], [] => Err QueryError end
    | x :: r =>
        f <- get_field x ;;
        if meets (fl_graphs f) joinable then determine_aux r joinable mergeable (js ++ [f]) ms
        else if meets (fl_graphs f) mergeable then determine_aux r joinable mergeable js (ms ++ [f])
        else determine_aux r joinable mergeable js ms
    end.
  Definition determine (m : mapping) (joinable mergeable : list string) : res mfld := determine_aux (mp_fields m) joinable mergeable [] [].

  (** ** The query has fields of its own, 154-214 *)
  Definition objects := list (string * mfld).
  Definition from_lookup (o : objects) (n : string) : res mfld := match assoc n o with Some f => Ok f | None => get_field n end.
  Definition canon_text (c : option string) : string := match c with Some d => d | None => "None" end.
  Definition opt_str_eqb (a b : option string) : bool :=
    match a, b with Some x, Some y => String.eqb x y | None, None => true | _, _ => false end.
  (** 176-180 *)
  Fixpoint other_canon (o : objects) (c : option string) (ms : list string) : res bool :=
    match ms with
    | [] => Ok false
    | m :: r => f <- from_lookup o m ;; if opt_str_eqb (fl_canon f) c then other_canon o c r else Ok true
    end.
  Definition truthy_canon (f : mfld) : list string := match fl_canon f with Some "" | None => [] | Some d => [d] end.
  (** 183-186, a set *)
  Definition dim_canons (o : objects) (dims : list string) : list string :=
    enum (flat_map (fun d => match assoc d o with Some f => truthy_canon f | None => [] end) dims).
  (** 191-208 *)
  Definition pick_canon (cs : list string) : res (option string) :=
    match cs with
    | [] => Ok None
    | [c] => Ok (Some c)
    | _ =>
        ws <- mapM (fun c => n <- n_measures c ;; Ok (c, n)) cs ;;
        match isort (fun a b : string * nat => Nat.leb (snd b) (snd a)) ws with [] => Err IndexError | (c, _) :: _ => Ok (Some c) end
    end.
  Definition replacement (o : objects) (joinable mergeable : list string) (m : mapping) (q : query) : res (mfld * bool) :=
    match special (mp_name m), q_metrics q, q_dims q with
    | true, m0 :: ms, _ =>
        f0 <- from_lookup o m0 ;;
        r <- get_field (canon_text (fl_canon f0) ++ "_" ++ mp_name m)%string ;;
        b <- other_canon o (fl_canon f0) ms ;;
        Ok (r, b)
    | true, [], _ :: _ =>
        c <- pick_canon (dim_canons o (q_dims q)) ;;
        match c with
        | Some c => r <- get_field (c ++ "_" ++ mp_name m)%string ;; Ok (r, false)
        | None => r <- determine m joinable mergeable ;; Ok (r, false)
        end
    | _, _, _ => r <- determine m joinable mergeable ;; Ok (r, false)
    end.
  Definition set_forced (b : bool) (q : query) : query := Query (q_metrics q) (q_dims q) (q_where q) (q_having q) (q_order q) (q_forced q || b).
  Definition mapped_lookup := list (string * (mapping * bool)).   (* bool: do_replace *)
  Fixpoint replace_all (ns : names) (o : objects) (joinable mergeable : list string) (ml : mapped_lookup) (q : query) : res query :=
    match ml with
    | [] => Ok q
    | (_, (_, false)) :: r => replace_all ns o joinable mergeable r q
    | (n, (m, true)) :: r =>
        x <- replacement o joinable mergeable m q ;;
        q' <- replace_mapped ns n (fst x) (set_forced (snd x) q) ;;
        replace_all ns o joinable mergeable r q'
    end.

  (** ** Only mapped names, 215-303 *)
  Definition checked := list (string * list (string * list string)).
  (** 222-226: a mapping without fields never enters the defaultdict *)
  Fixpoint check (ml : mapped_lookup) : res checked :=
    match ml with
    | [] => Ok []
    | (n, (m, _)) :: r =>
        fs <- mapM (fun x => f <- get_field x ;; Ok (x, fl_graphs f)) (mp_fields m) ;;
        c <- check r ;;
        Ok (match fs with [] => c | _ => (n, fs) :: c end)
    end.
  Definition view_part (x : string) : string := hd "" (split_char "."%char x).
  Definition pair_points (x : string) (g : list string) (y : string) (h : list string) : nat :=
    (if String.eqb (view_part x) (view_part y) then 1 else 0) + (if meets (joinable_of g) (joinable_of h) then 1 else 0).
  (** 239-262: the first other field that fits decides *)
  Fixpoint against (x : string) (g : list string) (others : list (string * list string)) : option nat :=
    match others with
    | [] => None
    | (y, h) :: r => if negb (String.eqb x y) && meets g h then Some (pair_points x g y h) else against x g r
    end.
  Fixpoint tally (name x : string) (g : list string) (c : checked) : nat * nat :=
    match c with
    | [] => (0, 0)
    | (n, others) :: r =>
        let '(p, pts) := tally name x g r in
        if String.eqb name n then (p, pts)
        else match against x g others with Some k => (S p, k + pts) | None => (p, pts) end
    end.
  (** 231-267; all_items at 272-274 *)
  Definition valid_items (c : checked) : list (string * (string * nat)) :=
    flat_map (fun e : string * list (string * list string) =>
      flat_map (fun f : string * list string =>
        let '(p, pts) := tally (fst e) (fst f) (snd f) c in
        if Nat.eqb p (List.length c - 1) then [(fst e, (fst f, pts))] else []) (snd e)) c.
  (** sorted(..., key=(points, field_id), reverse=True)[0] *)
  Definition item_geb (a b : string * (string * nat)) : bool :=
    if Nat.eqb (snd (snd a)) (snd (snd b)) then String.leb (fst (snd b)) (fst (snd a)) else Nat.leb (snd (snd b)) (snd (snd a)).
  Fixpoint replace_rest (ns : names) (l : lookup) (done : string) (ml : mapped_lookup) (q : query) : res query :=
    match ml with
    | [] => Ok q
    | (n, (m, _)) :: r =>
        if String.eqb n done then replace_rest ns l done r q
        else
          u <- usable l ;; _ <- handle_invalid l u ;;
          f <- determine m (joinable_of u) u ;;
          q' <- replace_mapped ns n f q ;;
          replace_rest ns l done r q'
    end.
  Definition only_mapped (ns : names) (ml : mapped_lookup) (q : query) : res query :=
    c <- check ml ;;
    nf <- match valid_items c, ml with
          | i :: is, _ :: _ :: _ =>
              match isort item_geb (i :: is) with [] => Err UnboundLocal | (n, (x, _)) :: _ => f <- get_field x ;; Ok (n, f) end
          | _, [(n, (m, _))] => match mp_fields m with [] => Err IndexError | x :: _ => f <- get_field x ;; Ok (n, f) end
          | _, _ => Err QueryError
          end ;;
    q' <- replace_mapped ns (fst nf) (snd nf) q ;;
    replace_rest ns [(fst nf, fl_graphs (snd nf))] (fst nf) ml q'.

  (** ** _resolve_mapped_fields, 126-153 *)
  Fixpoint put {V} (k : string) (v : V) (d : list (string * V)) : list (string * V) :=
    match d with [] => [(k, v)] | (k', v') :: r => if String.eqb k k' then (k, v) :: r else (k', v') :: put k v r end.
  Fixpoint look_up (l : list (bool * string)) (ml : mapped_lookup) (o : objects) : res (mapped_lookup * objects) :=
    match l with
    | [] => Ok (ml, o)
    | (b, n) :: r =>
        match get_mapped n with
        | Some m => look_up r (put n (m, b) ml) o
        | None => f <- get_field n ;; look_up r ml (put n f o)
        end
    end.
  Definition resolve (lookup_only : list string) (q : query) : res query :=
    w <- clause_fields (q_where q) ;; h <- clause_fields (q_having q) ;; o <- clause_fields (q_order q) ;;
    let all := q_metrics q ++ q_dims q ++ w ++ h ++ o in
    let ns := Names w h o all in
    let extra := filter (fun d => negb (mem d all)) lookup_only in
    mo <- look_up (map (fun n => (true, n)) all ++ map (fun n => (false, n)) extra) [] [] ;;
    let '(ml, objs) := mo in
    match ml with
    | [] => Ok q
    | _ =>
        match objs with
        | [] => only_mapped ns ml q
        | _ =>
            let l := map (fun e : string * mfld => (fst e, fl_graphs (snd e))) objs in
            u <- usable l ;; _ <- handle_invalid l u ;;
            replace_all ns objs (joinable_of u) u ml q
        end
    end.
End Mapped.
Arguments RDict {R}. Arguments CText {R}. Arguments CNone {R}. Arguments CList {R}.
Arguments Query {R}. Arguments q_metrics {R}. Arguments q_dims {R}. Arguments q_where {R}. Arguments q_having {R}. Arguments q_order {R}. Arguments q_forced {R}.
Arguments leaves {R}. Arguments leaf_name {R}. Arguments clause_fields {R}. Arguments replace_obj {R}. Arguments replace_clause {R}. Arguments replace_mapped {R}.
Arguments replacement {R}. Arguments set_forced {R}. Arguments replace_all {R}. Arguments replace_rest {R}. Arguments only_mapped {R}. Arguments resolve {R}.
