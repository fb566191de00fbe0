(** MQL(...) calls inside SQL text: MQLConverter (core/convert/convert.py:70-242).  sqlparse is not modelled: its
    token tree is the input.  A text and its tokens are related by the hypotheses of the theorems only. *)
From Verif Require Import PyBase PyStr JoinAs_Model.
Local Open Scope string_scope.
Local Open Scope list_scope.
Local Open Scope nat_scope.

Fixpoint upper (s : string) : string := match s with EmptyString => "" | String c r => String (upper_ascii c) (upper r) end.
Fixpoint last_char (s : string) : option ascii :=
  match s with EmptyString => None | String c EmptyString => Some c | String _ r => last_char r end.
Definition concat_text (l : list string) : string := fold_right append "" l.

(** ** Inside the parentheses.  ttype Keyword, ttype Whitespace, Identifier, IdentifierList (the texts of
    get_identifiers, and the whole text), Where (texts of its tokens), anything else. *)
Inductive mtok :=
| TKw (t : string) | TWs (t : string) | TId (t : string) | TIds (ids : list string) (t : string)
| TWhere (parts : list string) | TOther (t : string).
Definition text (k : mtok) : string :=
  match k with TKw t | TWs t | TId t | TOther t => t | TIds _ t => t | TWhere ps => concat_text ps end.
Inductive mode := MMetrics | MDims | MHaving | MOrder | MFor | MFunnel | MWithin.
Record within := Within { wi_value : Z; wi_unit : string }.

(** The local variables of resolve_mql_statement, 120-124; funnel_step is bound only once a funnel has begun *)
Record st := St {
  s_mode : mode; s_metrics : list string; s_dims : list string; s_where : list string; s_having : list string;
  s_order : list string; s_steps : list (list string); s_step : option (list string); s_for : option string;
  s_within : option within }.
Definition start : st := St MMetrics [] [] [] [] [] [] None None None.

Definition set_mode (m : mode) (s : st) := St m (s_metrics s) (s_dims s) (s_where s) (s_having s) (s_order s) (s_steps s) (s_step s) (s_for s) (s_within s).
Definition set_step (p : option (list string)) (s : st) := St (s_mode s) (s_metrics s) (s_dims s) (s_where s) (s_having s) (s_order s) (s_steps s) p (s_for s) (s_within s).
Definition set_steps (l : list (list string)) (s : st) := St (s_mode s) (s_metrics s) (s_dims s) (s_where s) (s_having s) (s_order s) l (s_step s) (s_for s) (s_within s).
Definition set_for (v : string) (s : st) := St (s_mode s) (s_metrics s) (s_dims s) (s_where s) (s_having s) (s_order s) (s_steps s) (s_step s) (Some v) (s_within s).
Definition set_within (w : within) (s : st) := St (s_mode s) (s_metrics s) (s_dims s) (s_where s) (s_having s) (s_order s) (s_steps s) (s_step s) (s_for s) (Some w).
Definition set_where (w : list string) (s : st) := St (s_mode s) (s_metrics s) (s_dims s) w (s_having s) (s_order s) (s_steps s) (s_step s) (s_for s) (s_within s).
Definition add_having (t : string) (s : st) := St (s_mode s) (s_metrics s) (s_dims s) (s_where s) (s_having s ++ [t]) (s_order s) (s_steps s) (s_step s) (s_for s) (s_within s).
Definition add_order (t : string) (s : st) := St (s_mode s) (s_metrics s) (s_dims s) (s_where s) (s_having s) (s_order s ++ [t]) (s_steps s) (s_step s) (s_for s) (s_within s).

(** _is_funnel, 241-242 *)
Definition is_funnel (k : mtok) : bool := String.eqb (strip (upper (text k))) "FUNNEL".
Definition is_conjunction (k : mtok) : bool := mem (upper (strip (text k))) ["AND"; "OR"].
(** _resolve_mode, 209-225 *)
Definition resolve_mode (k : mtok) (m : mode) : mode :=
  let w := upper (text k) in
  if String.eqb w "BY" then MDims
  else if String.eqb w "HAVING" then MHaving
  else if String.eqb w "ORDER BY" then MOrder
  else if String.eqb w "FOR" then MFor
  else if mem w ["FUNNEL"; "THEN"] then MFunnel
  else if String.eqb w "WITHIN" then MWithin
  else m.
(** _add_by_mode, 227-233 *)
Definition add_by_mode (id : string) (s : st) : res st :=
  match s_mode s with
  | MMetrics => Ok (St (s_mode s) (s_metrics s ++ [id]) (s_dims s) (s_where s) (s_having s) (s_order s) (s_steps s) (s_step s) (s_for s) (s_within s))
  | MDims => Ok (St (s_mode s) (s_metrics s) (s_dims s ++ [id]) (s_where s) (s_having s) (s_order s) (s_steps s) (s_step s) (s_for s) (s_within s))
  | _ => Err ParseError
  end.
Fixpoint add_all (ids : list string) (s : st) : res st :=
  match ids with [] => Ok s | i :: r => s' <- add_by_mode i s ;; add_all r s' end.

(** text[: text.lower().index("within")] *)
Fixpoint before_within (t : string) : string :=
  if starts_with "within" (lower t) then "" else match t with EmptyString => "" | String c r => String c (before_within r) end.

Section Parse.
  (** int(str) *)
  Variable int_of : string -> res Z.

  (** 157-161: n, unit = str(token).strip().split(" ") *)
  Definition read_within (t : string) : res within :=
    match split_char " "%char (strip t) with
    | [n; u] => v <- int_of n ;; Ok (Within v (lower u))
    | _ => Err ValueError
    end.
  Definition is_kw (k : mtok) : bool := match k with TKw _ => true | _ => false end.
  Definition is_ws (k : mtok) : bool := match k with TWs _ => true | _ => false end.
  Definition is_id (k : mtok) : bool := match k with TId _ => true | _ => false end.
  (** The identifiers, identifier lists and where, 171-181 *)
  Definition names (k : mtok) (s : st) : res st :=
    match k with
    | TId t => if is_funnel k then Ok s else add_by_mode t s
    | TIds ids _ => add_all ids s
    | TWhere ps => Ok (set_where ps s)
    | _ => Ok s
    end.
  (** 155-170 and what follows *)
  Definition rest (k : mtok) (s : st) : res st :=
    match s_mode s, is_id k with
    | MWithin, true => w <- read_within (text k) ;; Ok (set_mode MMetrics (set_within w s))
    | MHaving, _ => Ok (add_having (text k) s)
    | MOrder, _ => Ok (add_order (text k) s)
    | _, _ => names k s
    end.
  (** 141-154 *)
  Definition funnel (k : mtok) (s : st) : res st :=
    match s_mode s with
    | MFunnel =>
        match s_step s with
        | None => Err UnboundLocal
        | Some p =>
            if String.eqb (upper (text k)) "THEN" then Ok (set_step (Some []) (set_steps (s_steps s ++ [p]) s))
            else if contains "WITHIN" (upper (text k))
                 then let p' := p ++ [strip (before_within (text k))] in
                      Ok (set_mode MWithin (set_step (Some p') (set_steps (s_steps s ++ [p']) s)))
            else Ok (set_step (Some (p ++ [text k])) s)
        end
    | _ => rest k s
    end.
  (** One token, 126-181 *)
  Definition step (k : mtok) (s : st) : res st :=
    match s_mode s, is_ws k with
    | MFor, false => Ok (set_step (Some []) (set_mode MFunnel (set_for (strip (lower (hd "" (split_char " "%char (text k))))) s)))
    | _, _ =>
        if (is_kw k || is_funnel k) && negb (is_conjunction k) then
          let s1 := set_mode (resolve_mode k (s_mode s)) s in
          match s_mode s1 with
          | MFunnel => if String.eqb (upper (text k)) "THEN" then funnel k s1 else Ok (set_step (Some []) s1)
          | MDims => s2 <- (if String.eqb (upper (text k)) "SOURCE" then add_by_mode (text k) s1 else Ok s1) ;; funnel k s2
          | _ => funnel k s1
          end
        else funnel k s
    end.
  Fixpoint steps (ks : list mtok) (s : st) : res st :=
    match ks with [] => Ok s | k :: r => s' <- step k s ;; steps r s' end.

  (** The arguments for SQLQueryResolver, 183-203 *)
  Record mql := Mql {
    m_metrics : list string; m_dims : list string; m_where : option string; m_having : option string;
    m_order : option string; m_funnel : option (list string * within * option string) }.
  (** _tokens_to_sql of everything but the first token, 190-193, 235-239 *)
  Definition literal (ts : list string) : option string := match tl ts with [] => None | r => Some (strip (concat_text r)) end.
  Definition parse (ks : list mtok) : res mql :=
    s <- steps ks start ;;
    Ok (Mql (s_metrics s) (s_dims s) (literal (s_where s)) (literal (s_having s)) (literal (s_order s))
            (match s_within s, s_steps s with
             | Some w, _ :: _ => Some (map (fun p => strip (concat_text p)) (s_steps s), w,
                                       match s_for s with Some "" => None | f => f end)
             | _, _ => None
             end)).

  (** ** The whole text, 77-117.  Sub tokens of a statement: a Function (name, text, tokens between the
      parentheses), another group (text of its first token, text) or a leaf. *)
  Inductive ftok := FFun (name t : string) (args : list mtok) | FGroup (first t : string) | FLeaf (t : string).
  Inductive stok := SFun (f : ftok) | SId (t : string) (first : ftok) | SOther (t : string).
  Definition ftext (f : ftok) : string := match f with FFun _ t _ | FGroup _ t | FLeaf t => t end.
  Definition stext (k : stok) : string := match k with SFun f => ftext f | SId t _ => t | SOther t => t end.
  (** SQLQueryResolver(...).get_query(semicolon=False) on the parsed arguments *)
  Variable answer : mql -> res string.
  (** parse_and_resolve_mql, 109-118.  Indexing a leaf raises; a group that is not a function but begins with
      the word is taken to raise as well (its second token is not a parenthesis). *)
  Definition resolve (sql : string) (f : ftok) : res (option string) :=
    match f with
    | FLeaf _ => Err TypeError
    | FGroup first t => if String.eqb (upper first) "MQL" then Err TypeError else Ok None
    | FFun name t args =>
        if String.eqb (upper name) "MQL" then
          m <- parse args ;; q <- answer m ;;
          Ok (Some (if String.eqb t sql then q else ("(" ++ q ++ ")")%string))
        else Ok None
    end.
  Definition swap (sql : string) (f : ftok) (conv : string) : res string :=
    r <- resolve sql f ;;
    Ok (match r with None | Some "" => conv | Some q => replace (ftext f) q conv end).
  Definition convert_one (sql : string) (k : stok) (conv : string) : res string :=
    match k with
    | SFun f => swap sql f conv
    | SId t f =>
        if String.eqb (upper t) "MQL" then Err ParseError
        else if contains "MQL(" (upper t) then swap sql f conv else Ok conv
    | SOther _ => Ok conv
    end.
  Fixpoint convert_all (sql : string) (ks : list stok) (conv : string) : res string :=
    match ks with [] => Ok conv | k :: r => c <- convert_one sql k conv ;; convert_all sql r c end.
  Definition ends_semicolon (s : string) : bool := match last_char s with Some c => Ascii.eqb c ";"%char | None => false end.
  Definition get_query (sql : string) (ks : list stok) : res string :=
    c <- convert_all sql ks sql ;;
    match c with
    | EmptyString => Err IndexError
    | _ => Ok (if ends_semicolon c then c else (c ++ ";")%string)
    end.
End Parse.
