(** SQL text written by the caller: the fields a clause given as text names (parse_identifiers_from_clause, core/sql/query_base.py:37-52,
    and their look up, core/sql/single_query_resolve.py:154-208), and columns given as text (select_raw_sql, core/sql/query_generator.py:284-293,
    426-439, with strip_alias, query_base.py:77-87). *)
From Coq Require Import List String Ascii Bool Arith.
From Verif Require Import PyBase PyStr Core_Model.
Import ListNotations.
Local Open Scope string_scope.
Local Open Scope list_scope.

(** ** The names in a clause *)
(** A token of sqlparse: Name, Punctuation or any other type, with its text. The lexer is a parameter. *)
Inductive kind := KName | KPunctuation | KOther.
Definition token := (kind * string)%type.
Definition is_name (t : token) : bool := match fst t with KName => true | _ => false end.
Definition is_dot (t : token) : bool := match fst t with KPunctuation => String.eqb (snd t) "." | _ => false end.
(** field_names[-1] += x; the names are kept in reverse *)
Definition extend (x : string) (acc : list string) : res (list string) :=
  match acc with [] => Err IndexError | n :: r => Ok ((n ++ x)%string :: r) end.
(** The loop, query_base.py:43-51. [first]: i == 0; [prev]: generator[i - 1], which is the last token when i == 0. *)
Fixpoint identifiers (first : bool) (prev : token) (l : list token) (acc : list string) : res (list string) :=
  match l with
  | [] => Ok (rev acc)
  | t :: r =>
      let acc := if is_name t && (first || negb (String.eqb (snd prev) ".")) then snd t :: acc else acc in
      acc <- (if is_dot t then
                if is_name prev then
                  match r with
                  | [] => Err IndexError
                  | t' :: _ => if is_name t' then extend ("." ++ snd t')%string acc else Ok acc
                  end
                else Ok acc
              else Ok acc) ;;
      identifiers false t r acc
  end.
(** parse_identifiers_from_clause; [lex]: the tokens of the first statement, None when the text has no statement.
    A clause that is None names nothing. *)
Definition parse_identifiers (lex : string -> option (list token)) (clause : option string) : res (list string) :=
  match clause with
  | None => Ok []
  | Some t => match lex t with None => Err IndexError | Some l => identifiers true (last l (KOther, "")) l [] end
  end.
(** The fields of a clause given as text, single_query_resolve.py:168-184: the name, and the field it is looked up to.
    The model of the query, which only matters for projects of several models (C50), is left out. *)
Definition clause_fields (lex : string -> option (list token)) (p : project) (clause : option string) : res (list (string * field_obj)) :=
  ns <- parse_identifiers lex clause ;; mapM (fun n => f <- get_field p n None ;; Ok (n, f)) ns.

(** ** Columns given as text *)
(** the regular expression (?i)\ as\  *)
Definition is_as4 (a b c d : ascii) : bool :=
  Ascii.eqb a " " && Ascii.eqb (lower_ascii b) "a" && Ascii.eqb (lower_ascii c) "s" && Ascii.eqb d " ".
(** re.findall: matches do not overlap *)
Fixpoint find_as (s : string) : list string :=
  match s with
  | String a t =>
      match t with
      | String b (String c (String d r)) => if is_as4 a b c d then String a (String b (String c (String d ""))) :: find_as r else find_as t
      | _ => []
      end
  | EmptyString => []
  end.
(** s.split(sep), sep not empty; the fuel is the length of the text plus one *)
Fixpoint split_fuel (fuel : nat) (sep s : string) : list string :=
  match fuel with
  | O => [s]
  | S f =>
      match strip_prefix sep s with
      | Some r => "" :: split_fuel f sep r
      | None => match s with
                | EmptyString => [""]
                | String c r => match split_fuel f sep r with x :: xs => String c x :: xs | [] => [String c ""] end
                end
      end
  end.
Definition split (sep s : string) : list string := split_fuel (S (String.length s)) sep s.
(** strip_alias, query_base.py:77-87 *)
Definition strip_alias (sql : string) : string :=
  match find_as sql with
  | [] => sql
  | ms => String.concat " AS " (removelast (split " AS " (fold_left (fun s m => replace m " AS " s) ms sql)))
  end.
(** The columns and groups of a query with the columns [raw], query_generator.py:284-293 and 426-439; those of its fields are C36 *)
Definition with_raw_select (fields raw : list string) : list string := fields ++ raw.
Definition with_raw_groups (no_group_by : bool) (fields raw : list string) : list string := if no_group_by then [] else fields ++ map strip_alias raw.
