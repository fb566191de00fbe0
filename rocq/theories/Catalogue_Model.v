(** The catalogue of a connection: list_fields, list_metrics, list_dimensions, get_metric, get_dimension
    (core/query/query.py:180-221), over the cached lists of Project.fields (core/model/project.py:462-473), whose Field objects
    are changed by Field.equal (core/model/field.py:879-892); and the life of a connection: __init__, set_user, load, project,
    add_connections, list_connections (query.py:16-86). *)
From Coq Require Import List String Bool Arith.
From Verif Require Import PyBase PyStr Core_Model.
Import ListNotations.
Local Open Scope string_scope.
Local Open Scope list_scope.

(** ** Listing and looking up *)
Definition is_measure (f : field_obj) : bool := match fd_kind (fo_def f) with Measure => true | _ => false end.
Definition is_dimension (f : field_obj) : bool := match fd_kind (fo_def f) with Dimension | DimGroup => true | Measure => false end.

Section Catalogue.
  (** the project, for the user of the moment: its cache is per user *)
  Variable p : project.
  (** arguments view_name and show_hidden of Project.fields *)
  Definition key := (option string * bool)%type.
  Definition key_eqb (a b : key) : bool := opt_eqb (fst a) (fst b) && Bool.eqb (snd a) (snd b).
  (** what Project.fields has cached; an exception is not cached *)
  Definition cache := list (key * list field_obj).
  Fixpoint cached (k : key) (c : cache) : option (list field_obj) :=
    match c with [] => None | (k', l) :: r => if key_eqb k k' then Some l else cached k r end.
  Definition fetch (k : key) (c : cache) : res (list field_obj) * cache :=
    match cached k c with
    | Some l => (Ok l, c)
    | None => match fields p (fst k) (snd k) false with Ok l => (Ok l, (k, l) :: c) | Err e => (Err e, c) end
    end.
  (** list_fields 180-184, list_metrics 193-198, list_dimensions 208-213: [sel] says which fields *)
  Definition list_of (sel : field_obj -> bool) (k : key) (c : cache) : res (list field_obj) * cache :=
    match fetch k c with (Ok l, c') => (Ok (List.filter sel l), c') | (Err e, c') => (Err e, c') end.
  (** next((m for m in metrics if m.equal(name))): the field found, and the list with the objects as equal left them *)
  Fixpoint next_equal (sel : field_obj -> bool) (n : string) (l : list field_obj) : option (field_obj * list field_obj) :=
    match l with
    | [] => None
    | f :: r =>
        if sel f && fst (equal f n) then Some (snd (equal f n), snd (equal f n) :: r)
        else match next_equal sel n r with Some (g, r') => Some (g, f :: r') | None => None end
    end.
  (** get_metric 200-206 and get_dimension 215-221: hidden fields are not listed; the StopIteration is not caught *)
  Definition get_of (sel : field_obj -> bool) (v : option string) (n : string) (c : cache) : res field_obj * cache :=
    match fetch (v, false) c with
    | (Err e, c') => (Err e, c')
    | (Ok l, c') => match next_equal sel n l with Some (f, l') => (Ok f, ((v, false), l') :: c') | None => (Err StopIteration, c') end
    end.
  Definition get_metric := get_of is_measure.
  Definition get_dimension := get_of is_dimension.
  (** a call, whatever it answers *)
  Inductive call := LList (sel : field_obj -> bool) (k : key) | LMetric (v : option string) (n : string) | LDimension (v : option string) (n : string).
  Definition after (x : call) (c : cache) : cache :=
    match x with LList sel k => snd (list_of sel k c) | LMetric v n => snd (get_metric v n c) | LDimension v n => snd (get_dimension v n c) end.
  Fixpoint after_all (l : list call) (c : cache) : cache := match l with [] => c | x :: r => after_all r (after x c) end.
End Catalogue.

(** ** Connections *)
Section Life.
  Variable U : Type.   (* the attributes of a user *)
  (** Project objects are shared by reference; of a project only the user and the names of its connections matter here *)
  Record proj := Proj { pr_user : option U; pr_lookup : list string }.
  Record conn := Conn { c_location : option string; c_user : option U; c_project : option nat; c_passed : bool; c_raw : list string }.
  Record world := World { w_conns : nat -> option conn; w_projects : nat -> proj; w_next : nat }.
  Definition set {A} (i : nat) (x : A) (m : nat -> A) : nat -> A := fun j => if Nat.eqb i j then x else m j.
  Definition with_user (u : option U) (x : proj) : proj := Proj u (pr_lookup x).
  Inductive op :=
  | Build (names : list string)                                     (* a Project built by the caller *)
  | New (i : nat) (location : option string) (project : option nat) (user : option U) (raw : list string)
  | SetUser (i : nat) (u : option U)
  | Opens (i : nat) (works : bool)                                  (* [works]: the loader does not raise *)
  | Add (i : nat) (names : list string).
  Definition step (o : op) (w : world) : res unit * world :=
    match o with
    | Build names => (Ok tt, World (w_conns w) (set (w_next w) (Proj None names) (w_projects w)) (S (w_next w)))
    | New i loc pr u raw =>                                         (* __init__, 17-35 *)
        let c := Conn loc u pr (match pr with Some _ => true | None => false end) raw in
        (Ok tt, World (set i (Some c) (w_conns w)) (match pr with Some r => set r (with_user u (w_projects w r)) (w_projects w) | None => w_projects w end) (w_next w))
    | SetUser i u =>                                                (* set_user, 37-39 *)
        match w_conns w i with
        | None => (Err KeyError, w)
        | Some c =>
            let c' := Conn (c_location c) u (c_project c) (c_passed c) (c_raw c) in
            match c_project c with
            | None => (Err QueryError, World (set i (Some c') (w_conns w)) (w_projects w) (w_next w))
            | Some r => (Ok tt, World (set i (Some c') (w_conns w)) (set r (with_user u (w_projects w r)) (w_projects w)) (w_next w))
            end
        end
    | Opens i works =>                                               (* load, 41-54 *)
        match w_conns w i with
        | None => (Err KeyError, w)
        | Some c =>
            match c_location c with
            | Some _ =>
                if works then
                  (Ok tt, World (set i (Some (Conn (c_location c) (c_user c) (Some (w_next w)) (c_passed c) (c_raw c))) (w_conns w))
                                (set (w_next w) (Proj (c_user c) (c_raw c)) (w_projects w)) (S (w_next w)))
                else (Err QueryError, w)
            | None => if c_passed c then (Ok tt, w) else (Err AttributeError, w)   (* _project_passed is only set with a project *)
            end
        end
    | Add i names =>                                                (* add_connections, 71-72 *)
        match w_conns w i with
        | None => (Err KeyError, w)
        | Some c => (Ok tt, World (set i (Some (Conn (c_location c) (c_user c) (c_project c) (c_passed c) (c_raw c ++ names))) (w_conns w)) (w_projects w) (w_next w))
        end
    end.
  Fixpoint run (l : list op) (w : world) : world := match l with [] => w | o :: r => run r (snd (step o w)) end.
  Definition nothing : world := World (fun _ => None) (fun _ => Proj None []) 0.
  (** the user whose rights a query of connection [i] has: that of its project *)
  Definition acts_as (w : world) (i : nat) : option (option U) :=
    match w_conns w i with Some c => match c_project c with Some r => Some (pr_user (w_projects w r)) | None => None end | None => None end.
End Life.
