(** C88 for the symmetric aggregates (core/model/field.py:603-706, 719-742, 763-773): whatever text the measure and its key have, it is
    enclosed, and so is the whole.  The texts are those of Agg_Model, as tokens: a function with its constant arguments
    and casts is one call named by its text.
    A CASE without an ELSE is NULL when its condition fails, so ELSE NULL is no token. *)
From Coq Require Import List String Bool Arith ZArith Lia.
From Verif Require Import PyBase PyStr Prec_Model Prec_Spec Prec_Proofs Prec_Exact Prec_Props Agg_Model PrecTime_Model PrecTime_Props PrecTime_Text.
Import ListNotations.
Local Open Scope string_scope.
Local Open Scope list_scope.
Local Open Scope nat_scope.

Definition adjusted (d : sym) : string :=
  match d with SymBigQuery => "(CAST(FLOOR(#) AS FLOAT64))" | _ => "(CAST(FLOOR(#) AS DECIMAL(38,0)))" end.
Definition hashed (d : sym) : string :=
  match d with
  | SymSnowflake => "(TO_NUMBER(MD5(#), 'XXXXXXXXXXXXXXXXXXXXXXXXXXXXXXXX') % 1.0e27)::NUMERIC(38, 0)"
  | SymRedshift => "(FARMFINGERPRINT64(#))::NUMERIC(38, 0)"
  | SymPostgres => "(HASHTEXTEXTENDED(#, 0))::NUMERIC(38, 0)"
  | SymBigQuery => "CAST(FARM_FINGERPRINT(CAST(# AS STRING)) AS BIGNUMERIC)"
  end.
Definition as_float (d : sym) : string := match d with SymBigQuery => "CAST((#) AS FLOAT64)" | _ => "CAST((#) AS DOUBLE PRECISION)" end.
Definition factor (d : sym) : string :=
  match d with SymBigQuery => "CAST((1000000*1.0) AS FLOAT64)" | _ => "CAST((1000000*1.0) AS DOUBLE PRECISION)" end.
(** 603-706 *)
Definition sum_toks (d : sym) (t k : list tok) : list tok :=
  let n := enclose (adjusted d) (enclose "COALESCE(#, 0)" t ++ [TOp (OMul "*"); TAtom "(1000000 * 1.0)"]) in
  let h := enclose (hashed d) k in
  let out := enclose "SUM(DISTINCT #)" (n ++ TOp (OAdd "+") :: h) ++ TOp (OAdd "-") :: enclose "SUM(DISTINCT #)" h in
  enclose "COALESCE(#, 0)" (enclose (as_float d) out ++ [TOp (OMul "/"); TAtom (factor d)]).
(** 719-742 *)
Definition count_toks (t k : list tok) : list tok :=
  enclose "NULLIF(#, 0)" (enclose "COUNT(DISTINCT #)" (TCase :: (bracket t ++ [TOp (OCmp " IS NOT"); TAtom "NULL"]) ++ TThen :: k ++ [TEnd])).
(** 763-773 *)
Definition average_toks (d : sym) (t k : list tok) : list tok := bracket (sum_toks d t k ++ TOp (OMul "/") :: count_toks t k).

(** What they mean, of the values of the measure's sql and of the key *)
Definition sum_of (d : sym) (v k : expr) : expr :=
  let n := ECall (adjusted d) (EBin (OMul "*") (ECall "COALESCE(#, 0)" v) (EAtom "(1000000 * 1.0)")) in
  let h := ECall (hashed d) k in
  ECall "COALESCE(#, 0)"
    (EBin (OMul "/")
       (ECall (as_float d) (EBin (OAdd "-") (ECall "SUM(DISTINCT #)" (EBin (OAdd "+") n h)) (ECall "SUM(DISTINCT #)" h)))
       (EAtom (factor d))).
Definition count_of (v k : expr) : expr :=
  ECall "NULLIF(#, 0)" (ECall "COUNT(DISTINCT #)" (ECase (EBin (OCmp " IS NOT") v (EAtom "NULL")) k)).

Theorem C88_symmetric_sum : forall lv d t v k key, R lv 0 t v -> R lv 0 k key -> R lv 7 (sum_toks d t k) (sum_of d v key).
Proof.
  intros lv d t v k key H K. unfold sum_toks, sum_of. cbn zeta.
  assert (A : forall n f a b, n <= 7 -> R lv 0 a b -> R lv n (enclose f a) (ECall f b)) by (intros; apply enclose_R; auto).
  apply A; [lia|]. apply last_R. split; [cbn; lia|]. apply A; [cbn; lia|].
  apply (read_bin lv 0 (OAdd "-")); cbn [prec]; [apply A; [lia|] | apply A; [lia|]; apply A; [lia | exact K] | lia].
  apply (read_bin lv 0 (OAdd "+")); cbn [prec]; [apply A; [lia|] | apply A; [lia | exact K] | lia].
  apply last_R. split; [cbn; lia|]. apply A; [cbn; lia | exact H].
Qed.
Theorem C88_symmetric_count : forall lv t v k key, R lv 0 t v -> R lv 0 k key -> R lv 7 (count_toks t k) (count_of v key).
Proof.
  intros lv t v k key H K. unfold count_toks, count_of. repeat (apply enclose_R; split; [lia|]).
  apply (R_weaken _ 7); [|lia]. apply R_case; [|exact K]. apply last_R. split; [cbn; lia|].
  apply (R_weaken _ 7); [|cbn; lia]. unfold bracket. apply R_paren. exact H.
Qed.
Theorem C88_symmetric_average : forall lv d t v k key, R lv 0 t v -> R lv 0 k key ->
  R lv 7 (average_toks d t k) (EBin (OMul "/") (sum_of d v key) (count_of v key)).
Proof.
  intros lv d t v k key H K. unfold average_toks, bracket. apply R_paren. apply (read_bin lv 0 (OMul "/")); cbn [prec]; [| |lia].
  - apply (R_weaken _ 7); [apply C88_symmetric_sum; assumption | lia].
  - apply C88_symmetric_count; assumption.
Qed.
(** The tokens of a sum spell its text. *)
Theorem C88_symmetric_text : forall d t s k key, spells t s -> spells k key -> spells (sum_toks d t k) (render_agg (sum_symmetric d s key)).
Proof.
  intros d t s k key H K. unfold sum_toks. cbn zeta. unfold sum_symmetric.
  destruct d; (eapply spells_eq;
    [repeat first [exact H | exact K | apply spells_call; [reflexivity | reflexivity |] | apply spells_last | apply spells_bin]
    | cbn [render_agg render_num float_type before after adjusted hashed as_float factor op_name Ascii.eqb Bool.eqb append];
      rewrite ?sapp_assoc; reflexivity]).
Qed.
(** Tokens are also written with the CASE of a count, that says ELSE NULL. *)
Inductive written : list tok -> string -> Prop :=
  | w_spells t s : spells t s -> written t s
  | w_enclose f t s : written t s -> written (enclose f t) (before f ++ s ++ after f)
  | w_bracket t s : written t s -> written (bracket t) ("(" ++ s ++ ")")
  | w_bin o t s t' s' : written t s -> written t' s' -> written (t ++ TOp o :: t') (s ++ " " ++ op_name o ++ " " ++ s')
  | w_case t s t' s' : written t s -> written t' s' ->
      written (TCase :: t ++ TThen :: t' ++ [TEnd]) ("CASE WHEN  " ++ s ++ " THEN  " ++ s' ++ "  ELSE NULL END").
Lemma written_eq : forall t s s', written t s -> s = s' -> written t s'.
Proof. intros t s s' H <-. exact H. Qed.
Theorem C88_symmetric_count_text : forall t s k key, spells t s -> spells k key ->
  written (count_toks t k) (render_agg (count_symmetric s key)).
Proof.
  intros t s k key H K. unfold count_toks, count_symmetric. eapply written_eq.
  - apply w_enclose, w_enclose, w_case; [|apply w_spells; exact K].
    apply (w_bin _ (bracket t) ("(" ++ s ++ ")") [TAtom "NULL"] "NULL"); [apply w_bracket, w_spells; exact H | apply w_spells, spells_atom].
  - cbn [render_agg render_key before after op_name Ascii.eqb Bool.eqb append]. rewrite ?sapp_assoc. cbn [append].
    rewrite ?sapp_assoc. reflexivity.
Qed.
Theorem C88_symmetric_average_text : forall d t s k key, spells t s -> spells k key ->
  written (average_toks d t k) (render_agg (average_symmetric d s key)).
Proof.
  intros d t s k key H K. unfold average_toks, average_symmetric. eapply written_eq.
  - apply w_bracket, w_bin; [apply w_spells, C88_symmetric_text | apply C88_symmetric_count_text]; eassumption.
  - cbn [render_agg op_name]. rewrite ?sapp_assoc. reflexivity.
Qed.
(** a difference as the sql and a sum as the key *)
Example C88_symmetric_example :
  let t := [TAtom "o.a"; TOp (OAdd "-"); TAtom "o.b"] in
  R (fun _ => 7) 0 t (EBin (OAdd "-") (EAtom "o.a") (EAtom "o.b")) /\ spells t "o.a - o.b" /\
  spell [] (sum_toks SymPostgres t [TAtom "o.id"]) =
    "COALESCE(CAST((SUM(DISTINCT (CAST(FLOOR(COALESCE(o.a - o.b, 0) * (1000000 * 1.0)) AS DECIMAL(38,0))) + (HASHTEXTEXTENDED(o.id, 0))::NUMERIC(38, 0)) - SUM(DISTINCT (HASHTEXTEXTENDED(o.id, 0))::NUMERIC(38, 0))) AS DOUBLE PRECISION) / CAST((1000000*1.0) AS DOUBLE PRECISION), 0)".
Proof.
  cbn zeta. split; [|split].
  - apply (read_bin _ 0 (OAdd "-") [TAtom "o.a"]); cbn; [leaf | leaf | lia].
  - apply (spells_last [TAtom "o.a"] "o.a" (OAdd "-")). apply spells_atom.
  - reflexivity.
Qed.

Print Assumptions C88_symmetric_sum.
Print Assumptions C88_symmetric_count.
Print Assumptions C88_symmetric_average.
Print Assumptions C88_symmetric_text.
Print Assumptions C88_symmetric_count_text.
Print Assumptions C88_symmetric_average_text.
