(** Tiered dimensions: Field._translate_looker_tier_to_sql (core/model/field.py:2616-2630).
    A tier is the text its number prints as; the dimension's sql is the value the CASE looks at. *)
From Verif Require Import PyBase PyStr.
Local Open Scope string_scope.
Local Open Scope list_scope.

(** [sql < t], [sql >= t], [sql >= a and sql < b] *)
Inductive tcond := CLt (t : string) | CGe (t : string) | CBetween (a b : string).
Record tcase := TCase { tc_whens : list (tcond * string); tc_else : string }.

(** The loop over enumerate(tiers[:-1]), 2622-2625 *)
Fixpoint bucket_whens (tiers : list string) : list (tcond * string) :=
  match tiers with
  | a :: ((b :: _) as r) => (CBetween a b, ("[" ++ a ++ "," ++ b ++ ")")%string) :: bucket_whens r
  | _ => []
  end.
Definition tier_sql (tiers : list string) : res tcase :=
  match tiers with
  | [] => Err IndexError
  | t0 :: _ =>
      let last := List.last tiers t0 in
      Ok (TCase ((CLt t0, ("Below " ++ t0)%string) :: bucket_whens tiers ++ [(CGe last, ("[" ++ last ++ ",inf)")%string)]) "Unknown")
  end.
