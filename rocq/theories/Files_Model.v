(** Model of the project files: finding and reading them
    (metrics_layer/core/parse/project_reader_metrics_layer.py, project_reader_base.py, github_repo.py
    search) and writing them (metrics_layer/core/parse/project_dumper.py).

    A file system is the list of its files with their parsed YAML content: parsing is taken to invert
    writing (external: ruamel.yaml).  Folders exist when needed (os.makedirs / os.mkdir are not
    modelled), names have no glob characters, and paths are normalised. *)
From Coq Require Import List String Ascii ZArith Bool.
From Verif Require Import PyBase PyStr.
Import ListNotations.
Open Scope string_scope.
Open Scope list_scope.

Inductive yv :=
| YNone | YStr (s : string) | YNum (z : Z) | YBool (b : bool) | YList (l : list yv) | YMap (d : list (string * yv)).

Notation ydict := (list (string * yv)).
Notation fs := (list (string * yv)).

Definition slash : ascii := "/"%char.

(** str.endswith. *)
Fixpoint ends_with (suf s : string) : bool :=
  String.eqb suf s || match s with EmptyString => false | String _ r => ends_with suf r end.

(** glob's * and ** never match a name that starts with a dot. *)
Definition hidden (s : string) : bool := starts_with "." s.

(** github_repo.py:57-63 glob_search: glob(f"{folder}**/{pattern}", recursive=True) for the pattern *.ext.
    Two stars match any number of folders only when they are a whole path component, that is when the
    folder ends with a slash; else they are read as two plain stars, which complete the folder's own
    last component. *)
Definition glob_match (folder ext p : string) : bool :=
  match strip_prefix folder p with
  | None => false
  | Some rest =>
      let comps := split_char slash rest in
      let base := last comps "" in
      negb (hidden base) && ends_with ext base &&
      (if ends_with "/" folder
       then forallb (fun c => negb (hidden c) && negb (String.eqb c "")) comps
       else Nat.eqb (List.length comps) 2)
  end.

(** github_repo.py:28-35 search; project_reader_metrics_layer.py:38-40 search_for_yaml_files, whose
    list(set(...)) has every file once in an unspecified order. *)
Definition found (f : fs) (folders : list string) (p : string) : bool :=
  mem p (map fst f) && negb (contains "venv" p) &&
  existsb (fun d => glob_match d ".yml" p || glob_match d ".yaml" p) folders.

(** project_reader_metrics_layer.py:55-58 _abs_path, on a repository folder that ends with a slash. *)
Definition abs_path (root p : string) : string :=
  if starts_with "/" p then p else (root ++ p)%string.

(** project_reader_metrics_layer.py:42-53 get_folders for a key of zenlytic_project.yml: no project
    file gives no folders; a missing required key raises. *)
Definition get_folders (root : string) (zp : option (list (string * list string))) (key : string)
           (raise_errors : bool) : res (list string) :=
  match zp with
  | None => Ok []
  | Some z => match assoc key z with
              | Some l => Ok (map (abs_path root) l)
              | None => if raise_errors then Err KeyError else Ok []
              end
  end.

(** project_reader_metrics_layer.py:10-13 all_folders. *)
Definition all_folders (root : string) (zp : option (list (string * list string))) : res (list string) :=
  m <- get_folders root zp "model-paths" true ;;
  v <- get_folders root zp "view-paths" true ;;
  d <- get_folders root zp "dashboard-paths" false ;;
  Ok (m ++ v ++ d).

(** os.path.join(a, b) for a relative b. *)
Definition path_join (a b : string) : string :=
  if ends_with "/" a then (a ++ b)%string else (a ++ "/" ++ b)%string.

(** os.path.relpath for a file below the folder. *)
Definition relpath (root p : string) : string :=
  match strip_prefix root p with Some r => r | None => p end.

(** d[k] = v: replaces or appends. *)
Definition yset (k : string) (v : yv) (d : ydict) : ydict :=
  match assoc k d with
  | Some _ => map (fun e => if String.eqb k (fst e) then (k, v) else e) d
  | None => d ++ [(k, v)]
  end.

(** One round of the loop project_reader_metrics_layer.py:17-19: an empty file, a list or a scalar does
    not accept the assignment of "_file_path". *)
Definition read_file (root : string) (f : fs) (p : string) : res ydict :=
  match assoc p f with
  | Some (YMap d) => Ok (yset "_file_path" (YStr (relpath root p)) d)
  | _ => Err TypeError
  end.

Definition has_type (t : string) (d : ydict) : bool :=
  match assoc "type" d with Some (YStr s) => String.eqb s t | _ => false end.

(** project_reader_metrics_layer.py:7-36 load, reading the files in the given order: files of no known
    type are skipped. *)
Definition load (root : string) (f : fs) (order : list string) : res (list ydict * list ydict * list ydict) :=
  ds <- mapM (read_file root f) order ;;
  Ok (filter (has_type "model") ds, filter (has_type "view") ds, filter (has_type "dashboard") ds).

(** ** Writing *)

(** The loops at the end of _sort_view, _sort_field and _sort_model: the known keys in their order, then the
    others in the order of the dict. *)
Definition sort_keys (order : list string) (d : ydict) : ydict :=
  flat_map (fun k => match assoc k d with Some v => [(k, v)] | None => [] end)
           (order ++ filter (fun k => negb (mem k order)) (map fst d)).

(** project_dumper.py:44-60. *)
Definition view_key_order : list string :=
  ["version"; "type"; "name"; "label"; "description"; "model_name"; "sql_table_name"; "default_date"; "row_label";
   "extends"; "extension"; "required_access_grants"; "sets"; "identifiers"; "fields"].

(** project_dumper.py:82-104. *)
Definition field_key_order : list string :=
  ["name"; "field_type"; "type"; "datatype"; "hidden"; "primary_key"; "label"; "view_label"; "description";
   "required_access_grants"; "value_format_name"; "drill_fields"; "sql_distinct_key"; "tiers"; "timeframes";
   "intervals"; "sql_start"; "sql_end"; "sql"; "filters"; "extra"].

(** project_dumper.py:113-122. *)
Definition model_key_order : list string :=
  ["version"; "type"; "name"; "label"; "connection"; "fiscal_month_offset"; "week_start_day"; "access_grants"].

(** list.index on ["dimension", "dimension_group", "measure"]. *)
Definition type_index (v : yv) : res nat :=
  match v with
  | YStr s => if String.eqb s "dimension" then Ok 0 else if String.eqb s "dimension_group" then Ok 1
              else if String.eqb s "measure" then Ok 2 else Err ValueError
  | _ => Err ValueError
  end.

(** The sort key of project_dumper.py:73-75 as one number: a name with "id" in it goes before the others
    of its type.  A name that is not a string is taken to raise. *)
Definition field_key (fd : ydict) : res nat :=
  match assoc "field_type" fd with
  | None => Err KeyError
  | Some t =>
      i <- type_index t ;;
      match assoc "name" fd with
      | None => Err KeyError
      | Some (YStr n) => Ok (2 * i + (if contains "id" n then 0 else 1))
      | Some _ => Err TypeError
      end
  end.

(** Stable insertion into a list sorted by key. *)
Fixpoint insert_by (x : nat * ydict) (l : list (nat * ydict)) : list (nat * ydict) :=
  match l with
  | [] => [x]
  | y :: r => if Nat.leb (fst x) (fst y) then x :: l else y :: insert_by x r
  end.

Definition as_map (v : yv) : res ydict := match v with YMap d => Ok d | _ => Err TypeError end.

(** project_dumper.py:71-79 _sort_fields (the blank lines between fields are not modelled). *)
Definition sort_fields (fields : yv) : res yv :=
  match fields with
  | YList l =>
      ds <- mapM as_map l ;;
      keyed <- mapM (fun d => k <- field_key d ;; Ok (k, d)) ds ;;
      Ok (YList (map (fun kd => YMap (sort_keys field_key_order (snd kd))) (fold_right insert_by [] keyed)))
  | _ => Err TypeError
  end.

(** project_dumper.py:43-69 _sort_view. *)
Definition sort_view (v : ydict) : res ydict :=
  match assoc "fields" v with
  | None => Ok (sort_keys view_key_order v)
  | Some f => f' <- sort_fields f ;; Ok (sort_keys view_key_order (yset "fields" f' v))
  end.

(** project_dumper.py:112-128 _sort_model. *)
Definition sort_model (m : ydict) : ydict := sort_keys model_key_order m.

(** project_reader_base.py:131: keys that start with an underscore are not written. *)
Definition public (d : ydict) : ydict := filter (fun e => negb (starts_with "_" (fst e))) d.

(** Writing a file replaces it. *)
Definition write (p : string) (d : yv) (f : fs) : fs := yset p d f.

(** The file of an object: its _file_path, or a file named after it in the folder of its kind
    (project_dumper.py:15-26, 29-40). *)
Definition target (root folder suffix : string) (d : ydict) : res string :=
  match assoc "_file_path" d with
  | Some (YStr p) => Ok (abs_path root p)
  | Some _ => Err TypeError
  | None => match assoc "name" d with
            | Some (YStr n) => Ok (path_join (abs_path root folder) (n ++ suffix))%string
            | Some _ => Err TypeError
            | None => Err KeyError
            end
  end.

Fixpoint dump_all (sort : ydict -> res ydict) (root folder suffix : string) (l : list ydict) (f : fs) : res fs :=
  match l with
  | [] => Ok f
  | d :: r =>
      p <- target root folder suffix d ;;
      d' <- sort d ;;
      dump_all sort root folder suffix r (write p (YMap (public d')) f)
  end.

(** project_dumper.py:14-41 dump: all models, then all views; dashboards are not given to it. *)
Definition dump (root model_folder view_folder : string) (models views : list ydict) (f : fs) : res fs :=
  f1 <- dump_all (fun m => Ok (sort_model m)) root model_folder "_model.yml" models f ;;
  dump_all sort_view root view_folder "_view.yml" views f1.
