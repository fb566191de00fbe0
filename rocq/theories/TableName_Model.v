(** The table a view reads: View.sql_table_name (core/model/view.py:57-63, 1008-1049), Project.resolve_dbt_ref
    (core/model/project.py:578-587), Manifest (core/parse/manifest.py:4-57). *)
From Coq Require Import List String Ascii Bool Arith.
From Verif Require Import PyBase PyStr Repo_Model.
Import ListNotations.
Local Open Scope string_scope.
Local Open Scope list_scope.

Definition hyphen : ascii := "-"%char.

(** ** Conditions of the environment, view.py:1021-1049 *)
(** The class of all characters but a hyphen, repeated: the longest run of characters other than a hyphen, and the rest.
    What follows it in the patterns starts with a hyphen, so no shorter run can match. *)
Fixpoint run (s : string) : string * string :=
  match s with
  | "" => ("", "")
  | String c r => if Ascii.eqb hyphen c then ("", s) else (String c (fst (run r)), snd (run r))
  end.
(** [p ++ run ++ "--"] at the start of [s]: the run and the rest *)
Definition closed (p s : string) : option (string * string) :=
  match strip_prefix p s with
  | None => None
  | Some r => match strip_prefix "--" (snd (run r)) with None => None | Some t => Some (fst (run r), t) end
  end.
(** re.findall of -- if, a run and --: from left to right without overlap.  The fuel is the length of the text plus one. *)
Fixpoint find_conditions (fuel : nat) (s : string) : list string :=
  match fuel with
  | 0 => []
  | S n => match closed "-- if" s with
           | Some (c, r) => c :: find_conditions n r
           | None => match s with "" => [] | String _ r => find_conditions n r end
           end
  end.
Definition conditions (s : string) : list string := find_conditions (S (String.length s)) s.
(** re.search of [p], a run and --: the run *)
Fixpoint search_closed (p s : string) : option string :=
  match closed p s with
  | Some (c, _) => Some c
  | None => match s with "" => None | String _ r => search_closed p r end
  end.
(** Characters that are not special in a regular expression *)
Definition literal (c : ascii) : bool := negb (existsb (Ascii.eqb c) [".";"^";"$";"*";"+";"?";"{";"}";"[";"]";"\";"|";"(";")"]%char).
Fixpoint literal_text (s : string) : bool := match s with "" => true | String c r => literal c && literal_text r end.
Definition drop_newlines (s : string) : string := replace (String newline "") "" s.

(** ** dbt, manifest.py and project.py *)
(** A node of the manifest, with its key.  Every node has the keys read here. *)
Record node := Node { n_key : string; n_type : string; n_schema : string; n_alias : string }.
Definition to_table (n : node) : string := (n_schema n ++ "." ++ n_alias n)%string.
(** k.split(".")[-1] *)
Definition last_part (k : string) : string := List.last (split_char dot k) "".
Definition resolve_node (nodes : list node) (name : string) : res node :=
  match List.find (fun n => String.eqb name (last_part (n_key n))) nodes with Some n => Ok n | None => Err QueryError end.
Definition resolve_name (nodes : list node) (name : string) (override : option string) : res string :=
  n <- resolve_node nodes name ;;
  Ok match override with None => to_table n | Some s => (s ++ "." ++ n_alias n)%string end.
(** Manifest.models, 22-39 *)
Definition is_model (n : node) : bool := String.eqb (n_type n) "model".
Definition manifest_models (nodes : list node) (schema table : option string) : list string :=
  flat_map (fun n =>
    match schema, table with
    | None, None => if is_model n then [to_table n] else []
    | Some s, None => if is_model n && String.eqb (n_schema n) s then [to_table n] else []
    | None, Some t => if is_model n && String.eqb (n_alias n) t then [to_table n] else []
    | Some s, Some t => if is_model n && String.eqb (n_schema n) s && String.eqb (n_alias n) t then [to_table n] else []
    end) nodes.
(** Manifest.get_model, 11-19 *)
Definition manifest_model (nodes : list node) (name : string) : option node := List.find (fun n => is_model n && String.eqb (n_alias n) name) nodes.

(** What the table names depend on: the environment, the manifest if there is one that is not empty, and the schema of
    the connection of the last query (set_connection_schema, project.py:78-79, called at the start of each query) *)
Record project := Project { p_env : option string; p_manifest : option (list node); p_schema : option string }.
Definition set_schema (s : option string) (p : project) : project := Project (p_env p) (p_manifest p) s.
Definition resolve_ref (p : project) (name : string) : res string :=
  match p_manifest p with
  | None => match p_schema p with
            | None => Err QueryError
            | Some s => if String.eqb s "" then Err QueryError else Ok (s ++ "." ++ name)%string
            end
  | Some nodes => resolve_name nodes name (p_schema p)
  end.

(** ** View.resolve_sql_table_name, view.py:1008-1019 *)
(** text[: text.find(")")] of what follows the first [ref(], as Python slices it: a parenthesis before [ref(] gives an
    end before the start, and no parenthesis gives the end -1 *)
Fixpoint find_index (p s : string) : option nat :=
  match strip_prefix p s with
  | Some _ => Some 0
  | None => match s with "" => None | String _ r => match find_index p r with Some n => Some (S n) | None => None end end
  end.
Definition slice (s : string) (start stop : nat) : string := substring start (stop - start) s.
Definition ref_arguments (s : string) : string :=
  match find_index "ref(" s with
  | None => ""
  | Some i => slice s (i + 4) (match find_index ")" s with Some j => j | None => String.length s - 1 end)
  end.

Section View.
  (** what the search answers for a condition with characters that are special in a regular expression: the condition is
      put in the patterns as it is *)
  Variable special : string -> string -> res string.

  Definition resolve_conditional (s : string) (env : option string) : res string :=
    match List.find (fun c => match env with Some e => String.eqb (strip c) e | None => false end) (conditions s) with
    | None => Err QueryError
    | Some c =>
        if negb (literal_text c) then special c s
        else
          let phrase := ("-- if" ++ c ++ "--")%string in
          let t := drop_newlines s in
          match search_closed phrase t with
          | Some value => Ok (strip (replace "--" "" (phrase ++ value ++ "--")))   (* result.group() is the whole match *)
          | None => match find_after phrase t with Some r => Ok (strip r) | None => Ok s end
          end
    end.
  Definition resolve_table (p : project) (s : string) : res string :=
    if contains "-- if" s then resolve_conditional s (p_env p)
    else if contains "ref(" s then resolve_ref p (replace "'" "" (ref_arguments s))
    else Ok s.
End View.
