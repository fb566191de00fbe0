(** The commands list, show, validate and debug of the command line (cli/cli_commands.py:50-235), over the catalogue of a
    connection (core/query/query.py:74-86, 180-236) and the project it loaded. What a command does is what it prints and whether
    it ends normally (exit status 0) or by an exception (exit status 1, click's standalone mode). Colours are not modelled. The
    profile and the target, and loading the project from them (59-61), are C71. *)
From Coq Require Import List String Ascii Bool Arith.
From Verif Require Import PyBase PyStr Core_Model Catalogue_Model.
From Verif Require Connections_Model.
Import ListNotations.
Local Open Scope string_scope.
Local Open Scope list_scope.

Definition nl : string := String (ascii_of_nat 10) "".
(** each line is the argument of one click.echo *)
Definition outcome := (list string * res unit)%type.
Definition exit_status (o : outcome) : nat := match snd o with Ok _ => 0 | Err _ => 1 end.

(** A value of an attribute, as str() writes it; a list by its items. *)
Inductive value := VOne (t : string) | VItems (l : list string).
(** a dictionary, None being a key whose value is None *)
Definition dict := list (string * option value).
(** {key: attributes.get(key) for key in to_print if attributes.get(key) is not None}, model/model.py:375, view.py:180,
    field.py:877 *)
Definition printable (keys : list string) (d : dict) : list (string * value) :=
  flat_map (fun k => match assoc k d with Some (Some v) => [(k, v)] | _ => [] end) keys.
(** cli_commands.py:229-235; str of an empty list is [] *)
Definition attribute_lines (kv : string * value) : list string :=
  let (k, v) := kv in
  match v with
  | VItems (x :: r) => ("  " ++ k ++ ":")%string :: map (fun i => ("    " ++ i)%string) (x :: r)
  | VItems [] => [("  " ++ k ++ ": []")%string]
  | VOne t => [("  " ++ k ++ ": " ++ t)%string]
  end.

(** a connection: its name and what printable_attributes gives (modelled in Connections_Model.v) *)
Record conn := Conn { cn_name : string; cn_printable : res (list (string * value)) }.

(** the connection of a Connections_Model object, [str] writing its values *)
Definition conn_of (str : Connections_Model.cval -> string) (name : string) (o : Connections_Model.obj) : conn :=
  Conn name (d <- Connections_Model.printable_attributes o ;; Ok (map (fun kv => (fst kv, VOne (str (snd kv)))) d)).

Definition field_keys : list string := ["name"; "field_type"; "type"; "label"; "group_label"; "hidden"; "primary_key"; "timeframes"; "datatype"; "sql"].  (* field.py:864-875 *)
Definition view_keys : list string := ["name"; "type"; "label"; "sql_table_name"; "number_of_fields"].  (* view.py:176 *)
Definition model_keys : list string := ["name"; "type"; "label"; "connection"].                         (* model.py:373 *)

Section Cli.
  Variable p : project.
  Variable models : list string.                 (* names of the models, in order; models are not restricted by grants *)
  Variable conns : res (list conn).              (* list_connections: it loads them, which may raise *)
  (** to_dict of the objects, and the table of a view (C68), which may raise *)
  Variable model_dict : string -> dict.
  Variable view_dict : view_def -> dict.
  Variable view_table : view_def -> res (option string).
  Variable field_dict : field_obj -> res dict.

  (** model.printable_attributes 372-375 *)
  Definition model_attributes (m : string) : res (list (string * value)) := Ok (printable model_keys (model_dict m)).
  (** view.printable_attributes 175-180: the assignments replace the values of the definition *)
  Definition view_attributes (v : view_def) : res (list (string * value)) :=
    t <- view_table v ;;
    Ok (printable view_keys (("number_of_fields", Some (VOne (nat_str (List.length (vd_fields v))))) :: ("sql_table_name", option_map VOne t) :: view_dict v)).
  (** field.printable_attributes 863-877 *)
  Definition field_attributes (f : field_obj) : res (list (string * value)) := d <- field_dict f ;; Ok (printable field_keys d).

  (** list_models, list_views, list_fields with names_only, query.py:180-229 *)
  Definition names_of (sel : field_obj -> bool) (view : option string) (hidden : bool) : res (list string) :=
    l <- fst (list_of p sel (view, hidden) []) ;; Ok (map fo_name l).
  (** the items of list, cli_commands.py:158-177; None: no such type. A command is a process of its own: nothing is cached. *)
  Definition items (ty : string) (view : option string) (hidden : bool) : option (res (list string)) :=
    if String.eqb ty "models" then Some (Ok models)
    else if String.eqb ty "connections" then Some (cs <- conns ;; Ok (map cn_name cs))
    else if String.eqb ty "views" then Some (vs <- views p true ;; Ok (map vd_name vs))
    else if String.eqb ty "fields" then Some (names_of (fun _ => true) view hidden)
    else if String.eqb ty "dimensions" then Some (names_of is_dimension view hidden)
    else if String.eqb ty "metrics" then Some (names_of is_measure view hidden)
    else if String.eqb ty "profiles" then Some (Err NotImplemented)                  (* get_all_profiles 242-243 *)
    else None.
  Definition no_type (ty : string) : string :=
    ("Could not find the type " ++ ty ++ ", please use one of the options: models, connections, views, fields, metrics, dimensions")%string.
  Definition drop_last (s : string) : string := String.substring 0 (String.length s - 1) s.   (* type[:-1] *)
  (** list_, cli_commands.py:151-184 *)
  Definition list_cmd (ty : string) (view : option string) (hidden : bool) : outcome :=
    match items ty view hidden with
    | None => ([no_type ty], Ok tt)
    | Some (Err e) => ([], Err e)
    | Some (Ok []) => ([("Could not find any " ++ ty)%string], Ok tt)
    | Some (Ok (x :: r)) =>
        (("Found " ++ nat_str (List.length (x :: r)) ++ " " ++ (if Nat.ltb 1 (List.length (x :: r)) then ty else drop_last ty) ++ ":" ++ nl)%string :: x :: r, Ok tt)
    end.

  (** get_model project.py:369-377 *)
  Definition get_model (n : string) : res string := match List.find (fun m => String.eqb m n) models with Some m => Ok m | None => Err AccessDenied end.
  (** get_connection query.py:85-86 *)
  Definition get_connection (n : string) : res (option conn) := cs <- conns ;; Ok (List.find (fun c => String.eqb (cn_name c) n) cs).
  (** the object of show, cli_commands.py:208-225: the attributes it will print, None where there is no object *)
  Definition found (ty n : string) (view : option string) : option (res (option (res (list (string * value))))) :=
    if String.eqb ty "model" then Some (m <- get_model n ;; Ok (Some (model_attributes m)))
    else if String.eqb ty "connection" then Some (c <- get_connection n ;; Ok (option_map cn_printable c))
    else if String.eqb ty "view" then Some (v <- get_view p n ;; Ok (Some (view_attributes v)))
    else if String.eqb ty "field" then Some (f <- get_field p n view ;; Ok (Some (field_attributes f)))
    else if String.eqb ty "dimension" then Some (f <- fst (get_dimension p view n []) ;; Ok (Some (field_attributes f)))
    else if String.eqb ty "metric" then Some (f <- fst (get_metric p view n []) ;; Ok (Some (field_attributes f)))
    else None.
  (** show, cli_commands.py:202-235: the heading is printed before the attributes are computed *)
  Definition show_cmd (ty n : string) (view : option string) : outcome :=
    match found ty n view with
    | None => ([no_type ty], Ok tt)
    | Some (Err e) => ([], Err e)
    | Some (Ok None) => ([], Ok tt)
    | Some (Ok (Some a)) =>
        let heading := ("Attributes in " ++ ty ++ " " ++ n ++ ":" ++ nl)%string in
        match a with Err e => ([heading], Err e) | Ok d => (heading :: flat_map attribute_lines d, Ok tt) end
    end.

  (** validate, cli_commands.py:57-70; [errors] are the messages of Project.validate (C45) *)
  Definition validate_cmd (errors : res (list string)) : outcome :=
    match errors with
    | Err e => ([], Err e)
    | Ok [] => ([("Project passed (checked " ++ nat_str (List.length models) ++ " model" ++ (if Nat.ltb 1 (List.length models) then "s" else "") ++ ")!")%string], Ok tt)
    | Ok (x :: r) =>
        (("Found " ++ nat_str (List.length (x :: r)) ++ " error" ++ (if Nat.ltb 1 (List.length (x :: r)) then "s" else "") ++ " in the project:" ++ nl)%string
         :: map (fun m => (nl ++ m ++ nl)%string) (x :: r), Ok tt)
    end.

  (** debug, cli_commands.py:80-136: a line printed, or a query run on a connection *)
  Inductive event := Said (t : string) | Ran (q : string) (c : conn).
  (** what a warehouse answers: None, or the text of the exception *)
  Variable answer : string -> conn -> option string.
  (** 122-124; the quotes of str of a list are left out (no attribute of a connection is a list) *)
  Fixpoint say_attributes (cs : list conn) : list event * res unit :=
    match cs with
    | [] => ([], Ok tt)
    | c :: r =>
        match cn_printable c with
        | Err e => ([], Err e)
        | Ok d => let (l, o) := say_attributes r in
            (map (fun kv => Said ("  " ++ fst kv ++ ": " ++ match snd kv with VOne t => t | VItems l => "[" ++ String.concat ", " l ++ "]" end)%string) d ++ l, o)
        end
    end.
  Definition test_query : string := "select 1 as id;".
  (** 126-136 *)
  Definition test (c : conn) : list event :=
    [Ran test_query c;
     Said (nl ++ "Connection " ++ cn_name c ++ " test: " ++ match answer test_query c with None => "OK connection ok" | Some e => "Failed with:" ++ nl ++ nl ++ " " ++ e end)%string].
  (** [environment]: versions and paths, 92-99 *)
  Definition debug_cmd (environment : list string) (profiles : option string) (git : bool) : list event * res unit :=
    let before :=
      map Said (environment ++
        [match profiles with Some f => "Using profiles.yml file at " ++ f | None => "Could not find profiles.yml file" end%string;
         (nl ++ "Configuration:")%string;
         match profiles with Some _ => "  profiles.yml file OK found and valid" | None => "  profiles.yml file Not found" end;
         (nl ++ "Required dependencies:")%string;
         ("  git [" ++ (if git then "OK found" else "Not found") ++ "]")%string]) in
    match conns with
    | Err e => (before, Err e)
    | Ok cs =>
        let heading := Said (nl ++ "Connection" ++ (if Nat.ltb 1 (List.length cs) then "s" else "") ++ ":")%string in
        match say_attributes cs with
        | (l, Err e) => (before ++ heading :: l, Err e)
        | (l, Ok _) => (before ++ heading :: l ++ flat_map test cs, Ok tt)
        end
    end.
End Cli.
