(** SQLReplacement.fields_to_replace, base.py:90-94: all non overlapping matches, left to right, of
    \$\{(.*?)\} where the dot does not match a newline. *)
From Verif Require Import PyBase PyStr.
Local Open Scope string_scope.

Definition rbrace : ascii := "}"%char.
Definition newline : ascii := ascii_of_nat 10.

(** The text before the first closing brace, if one comes before any newline, and what follows it. *)
Fixpoint upto_brace (s : string) : option (string * string) :=
  match s with
  | EmptyString => None
  | String c r =>
      if Ascii.eqb c rbrace then Some (EmptyString, r)
      else if Ascii.eqb c newline then None
      else match upto_brace r with
           | Some (a, b) => Some (String c a, b)
           | None => None
           end
  end.

Fixpoint refs_fuel (fuel : nat) (s : string) : list string :=
  match fuel with
  | O => []
  | S f =>
      match s with
      | EmptyString => []
      | String _ r =>
          match strip_prefix "${" s with
          | Some t => match upto_brace t with
                      | Some (a, b) => a :: refs_fuel f b
                      | None => refs_fuel f r
                      end
          | None => refs_fuel f r
          end
      end
  end.
Definition fields_to_replace (s : string) : list string := refs_fuel (S (String.length s)) s.

(** The placeholder "${" + name + "}" *)
Definition placeholder (n : string) : string := "${" ++ n ++ "}".
