(** Validity of names, base.py:23-28. *)
From Verif Require Import PyBase PyStr Core_Model.
Local Open Scope string_scope.
Local Open Scope nat_scope.

(** [A-Za-z0-9_] *)
Definition name_char (c : ascii) : bool :=
  let n := nat_of_ascii c in
  (Nat.leb 65 n && Nat.leb n 90) || (Nat.leb 97 n && Nat.leb n 122) || (Nat.leb 48 n && Nat.leb n 57) || Nat.eqb n 95.
(** re.match(NAME_REGEX, name).group(1): the longest prefix of allowed characters, None if it is empty *)
Fixpoint name_prefix (s : string) : string :=
  match s with
  | EmptyString => EmptyString
  | String c r => if name_char c then String c (name_prefix r) else EmptyString
  end.
Definition name_match (s : string) : option string :=
  match name_prefix s with EmptyString => None | p => Some p end.
(** MetricsLayerBase.valid_name, base.py:23-28 *)
Definition valid_name (s : string) : bool :=
  match name_match s with Some g => String.eqb g s | None => false end.
