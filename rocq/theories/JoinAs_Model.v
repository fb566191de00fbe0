(** Project._handle_join_as_duplication, project.py:136-183.
    A view dictionary is reduced to the keys this function reads or writes; every other key is kept
    together in [jv_rest] (it is copied unchanged by {**v, ...}).  A missing "identifiers" or "fields"
    key is the empty list.  An identifier carrying join_as is assumed to carry "type" and "name"
    (otherwise the code raises KeyError). *)
From Verif Require Import PyBase PyStr.
Local Open Scope string_scope.
Local Open Scope list_scope.
Local Open Scope nat_scope.

Record ident := Ident {
  i_name : string;
  i_type : string;
  i_join_as : option string;
  i_label : option string;           (* join_as_label *)
  i_prefix : option string;          (* join_as_field_prefix *)
  i_include_metrics : bool;
  i_rest : string }.

Record jfield := JField { jf_name : string; jf_kind : string }.

Record jview := JView {
  jv_name : string;
  jv_identifiers : list ident;
  jv_fields : list jfield;
  jv_label : option string;
  jv_field_prefix : option string;
  jv_rest : string }.

(** str.title() on ASCII: a letter after a non letter is upper case, other letters lower case. *)
Definition is_upper (c : ascii) : bool := let n := nat_of_ascii c in (65 <=? n) && (n <=? 90).
Definition is_lower (c : ascii) : bool := let n := nat_of_ascii c in (97 <=? n) && (n <=? 122).
Definition is_letter (c : ascii) : bool := is_upper c || is_lower c.
Definition upper_ascii (c : ascii) : ascii :=
  if is_lower c then ascii_of_nat (nat_of_ascii c - 32) else c.
Fixpoint title_aux (after_letter : bool) (s : string) : string :=
  match s with
  | EmptyString => EmptyString
  | String c r => String (if after_letter then lower_ascii c else upper_ascii c) (title_aux (is_letter c) r)
  end.
Definition title (s : string) : string := title_aux false s.

(** [identifier_to_add.pop("join_as")], project.py:147-148 *)
Definition without_join_as (i : ident) : ident :=
  Ident (i_name i) (i_type i) None (i_label i) (i_prefix i) (i_include_metrics i) (i_rest i).

(** The new view before it is renamed, project.py:149-171 *)
Definition new_view (v : jview) (i : ident) (name : string) : jview :=
  JView (jv_name v)
        [without_join_as i]
        (if i_include_metrics i then jv_fields v
         else filter (fun f => negb (String.eqb (jf_kind f) "measure")) (jv_fields v))
        (match i_label i with Some l => Some l | None => jv_label v end)
        (Some (match i_prefix i with
               | Some x => x
               | None => match i_label i with
                         | Some l => l
                         | None => title (replace "_" " " name)
                         end
               end))
        (jv_rest v).

(** The dict join_as_to_create in insertion order. *)
Definition created := list (string * jview).

(** The inner loop over the identifiers the view had when the loop started (the loop iterates over the
    old list object while v["identifiers"] is rebound), project.py:140-178 *)
Fixpoint loop_identifiers (todo : list ident) (v : jview) (d : created) : res (jview * created) :=
  match todo with
  | [] => Ok (v, d)
  | i :: r =>
      match i_join_as i with
      | Some n =>
          if String.eqb (i_type i) "primary" then
            let v' := JView (jv_name v)
                            (filter (fun j => negb (String.eqb (i_name j) (i_name i))) (jv_identifiers v))
                            (jv_fields v) (jv_label v) (jv_field_prefix v) (jv_rest v) in
            match assoc n d with
            | None => loop_identifiers r v' (d ++ [(n, new_view v' i n)])
            | Some w => if String.eqb (jv_name w) (jv_name v) then loop_identifiers r v' d else Err QueryError
            end
          else loop_identifiers r v d
      | None => loop_identifiers r v d
      end
  end.

(** The outer loop, project.py:139 *)
Fixpoint loop_views (vs : list jview) (d : created) : res (list jview * created) :=
  match vs with
  | [] => Ok ([], d)
  | v :: r =>
      vd <- loop_identifiers (jv_identifiers v) v d ;;
      rd <- loop_views r (snd vd) ;;
      Ok (fst vd :: fst rd, snd rd)
  end.

Definition rename (v : jview) (n : string) : jview :=
  JView n (jv_identifiers v) (jv_fields v) (jv_label v) (jv_field_prefix v) (jv_rest v).

(** The whole function; the new views are appended, project.py:180-183 *)
Definition handle_join_as (vs : list jview) : res (list jview) :=
  r <- loop_views vs [] ;;
  Ok (fst r ++ map (fun nv => rename (snd nv) (fst nv)) (snd r)).
