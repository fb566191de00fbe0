(** Opening a project from the command line: the connection of a dbt profile (core/parse/project_loader.py:126-148), the
    profile of a folder, its initialisation and the connection used for seeding (cli/seeding.py:604-697), and the kind of a
    repository (core/parse/github_repo.py:15-23, project_loader.py:46-52).
    YAML values are those of Connections_Model.v; keys are texts. *)
From Coq Require Import List String Bool Arith.
From Verif Require Import PyBase PyStr Connections_Model.
Import ListNotations.
Local Open Scope string_scope.
Local Open Scope list_scope.

(** ConfigError has one of three messages; other exceptions are Python's *)
Inductive fault := NoProfilesFile | NoProfile | NoTarget | Py (e : exc).
Inductive out (A : Type) := Done (a : A) | Raised (f : fault).
Arguments Done {A} a. Arguments Raised {A} f.
Definition andthen {A B} (m : out A) (k : A -> out B) : out B := match m with Done a => k a | Raised f => Raised f end.
Notation "'do' x <- m ; k" := (andthen m (fun x => k)) (at level 61, x name, m at next level, right associativity).

(** d.get(k) and d[k]; only a dict has get, and indexing another value with a text is a TypeError *)
Definition get (d : cval) (k : string) : out cval :=
  match d with CDict l => Done (match assoc k l with Some v => v | None => CNone end) | _ => Raised (Py AttributeError) end.
Definition index (d : cval) (k : string) : out cval :=
  match d with CDict l => match assoc k l with Some v => Done v | None => Raised (Py KeyError) end | _ => Raised (Py TypeError) end.

(** get_connections_from_profile, 126-148.  [profiles] is the content of the profiles file, None if there is none; an empty file
    reads as null.  A default target that is not a text is not among the keys. *)
Definition connections_from_profile (profiles : option cval) (dir name : string) (target : option string) : out (list kwargs) :=
  match profiles with
  | None | Some CNone => Raised NoProfilesFile
  | Some d =>
      do profile <- get d name ;
      if is_none profile then Raised NoProfile
      else
        do t <- (match target with Some t => Done (CStr t) | None => index profile "target" end) ;
        do outputs <- index profile "outputs" ;
        do found <- (match t with CStr t => get outputs t | _ => get outputs "" end) ;
        match t, found with
        | CStr _, CNone => Raised NoTarget
        | CStr _, CDict kw => Done [set "name" (CStr name) (set "directory" (CStr dir) kw)]
        | CStr _, _ => Raised (Py TypeError)
        | _, _ => Raised NoTarget
        end
  end.

(** ** The folder a command runs in *)
Record folder := Folder { f_zenlytic : option cval; f_dbt : option cval; f_dirs : list string }.
(** get_profile, 629-644 *)
Definition get_profile (f : folder) : out cval :=
  match f_zenlytic f with
  | Some z => index z "profile"
  | None => match f_dbt f with Some d => index d "profile" | None => Raised (Py ValueError) end
  end.
(** _init_directories, 662-677 *)
Definition make_dirs (l : list string) (dirs : list string) : list string := List.fold_left (fun ds d => if mem d ds then ds else ds ++ [d]) l dirs.
Definition init_directories (f : folder) : folder :=
  Folder (f_zenlytic f) (f_dbt f) (make_dirs (match f_dbt f with Some _ => ["dashboards"] | None => ["models"; "views"; "dashboards"] end) (f_dirs f)).
(** _init_project_file, 680-696: the file is written whether there is one or not *)
Definition init_project_file (f : folder) : out folder :=
  do base <- (match f_dbt f with
              | Some d => do n <- index d "name" ; do p <- index d "profile" ; Done [("name", n); ("profile", p); ("mode", CStr "dbt")]
              | None => Done [("name", CStr "zenlytic_project_name"); ("profile", CStr "my_dbt_profile"); ("model-paths", CStr "models"); ("view-paths", CStr "views")]
              end) ;
  Done (Folder (Some (CDict (base ++ [("dashboard-paths", CStr "dashboards")]))) (f_dbt f) (f_dirs f)).
(** the init command, cli_commands.py:21-25.  A list of one path is written as the path. *)
Definition init (f : folder) : out folder := init_project_file (init_directories f).
(** the profile of a command, cli_commands.py:43-44 and the same lines of the others: the option or that of the folder *)
Definition profile_of (option_ : option string) (f : folder) : out cval := match option_ with Some p => Done (CStr p) | None => get_profile f end.

(** get_repo_type, github_repo.py:15-23: [kind] is the argument, [files] the project files found in the folder and below *)
Definition mode_of (z : cval) : out cval :=
  match z with CDict l => Done (match assoc "mode" l with Some v => v | None => CStr "metrics_layer" end) | _ => Raised (Py AttributeError) end.
Definition repo_type (kind : option string) (files : list cval) : out cval :=
  match kind with
  | Some k => if String.eqb k "" then match files with [z] => mode_of z | _ => Done (CStr "metrics_layer") end else Done (CStr k)
  | None => match files with [z] => mode_of z | _ => Done (CStr "metrics_layer") end
  end.
(** which reader reads it, project_loader.py:46-52 *)
Inductive reader := Metricflow | MetricsLayer.
Definition reader_of (t : cval) : out reader :=
  match t with
  | CStr s => if String.eqb s "metricflow" then Done Metricflow else if String.eqb s "metrics_layer" then Done MetricsLayer else Raised (Py TypeError)
  | _ => Raised (Py TypeError)
  end.

(** _init_connection, seeding.py:605-617, over the names of the connections: None is no connection *)
Definition init_connection (names : list string) (wanted : option string) : out (option nat) :=
  let by_name n := Done ((fix go (i : nat) (l : list string) := match l with [] => None | x :: r => if String.eqb x n then Some i else go (S i) r end) 0 names) in
  match wanted with
  | Some n => if String.eqb n "" then (match names with [_] => Done (Some 0) | _ => Raised (Py ValueError) end) else by_name n
  | None => match names with [_] => Done (Some 0) | _ => Raised (Py ValueError) end
  end.
