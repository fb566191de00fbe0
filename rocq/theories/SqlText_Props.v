(** C76: what a warehouse reads in the text of a condition. *)
From Coq Require Import List String Ascii ZArith QArith Bool Lia.
From Verif Require Import PyBase PyStr Core_Model Clause_Model Clause_Spec Clause_Proofs Filter_Model Cond_Model SqlText_Model.
Import ListNotations.
Local Open Scope string_scope.
Local Open Scope list_scope.

(** ** How a warehouse reads a text
    Characters outside of literals are tokens of their own; a string literal is one token, with its contents; so is
    a quoted identifier.  Comments are no tokens.  The two rules in which the warehouses differ: whether a backslash
    escapes the next character of a literal, and whether two quotes inside a literal are one quote. *)
Inductive tk := TC (c : ascii) | TS (s : string) | TI (s : string).
Record rules := Rules { backslash : bool; doubling : bool }.
(** Documented lexical rules of the warehouses *)
Definition rules_of (qt : string) : rules :=
  if mem qt ["SNOWFLAKE"; "REDSHIFT"] then Rules true true
  else if mem qt ["BIGQUERY"; "DATABRICKS"] then Rules true false
  else Rules false true.

Inductive mode := MPlain | MDash | MSlash | MLine | MBlock | MStar | MStr (acc : string) | MQuote (acc : string) | MEsc (acc : string) | MId (acc : string).
Definition add (acc : string) (c : ascii) : string := (acc ++ String c "")%string.
Definition is (a b : ascii) : bool := Ascii.eqb a b.
Definition plain_step (c : ascii) : list tk * mode :=
  if is c "'" then ([], MStr "") else if is c """" then ([], MId "")
  else if is c "-" then ([], MDash) else if is c "/" then ([], MSlash) else ([TC c], MPlain).
Definition after (t : tk) (x : list tk * mode) : list tk * mode := (t :: fst x, snd x).
Definition step (r : rules) (m : mode) (c : ascii) : list tk * mode :=
  match m with
  | MPlain => plain_step c
  | MDash => if is c "-" then ([], MLine) else after (TC "-") (plain_step c)
  | MSlash => if is c "*" then ([], MBlock) else after (TC "/") (plain_step c)
  | MLine => if is c (ascii_of_nat 10) then ([], MPlain) else ([], MLine)
  | MBlock => if is c "*" then ([], MStar) else ([], MBlock)
  | MStar => if is c "/" then ([], MPlain) else if is c "*" then ([], MStar) else ([], MBlock)
  | MStr acc => if is c "'" then ([], MQuote acc) else if backslash r && is c "\" then ([], MEsc acc) else ([], MStr (add acc c))
  | MQuote acc => if is c "'" then if doubling r then ([], MStr (add acc c)) else ([TS acc], MStr "")
                  else after (TS acc) (plain_step c)
  | MEsc acc => ([], MStr (add acc c))
  | MId acc => if is c """" then ([TI acc], MPlain) else ([], MId (add acc c))
  end.
Fixpoint run (r : rules) (m : mode) (s : string) : list tk * mode :=
  match s with
  | EmptyString => ([], m)
  | String c s => let '(o, m) := step r m c in let '(o', m') := run r m s in (o ++ o', m')
  end.
(** None: the text ends inside of a literal, an identifier or a comment *)
Definition finish (m : mode) : option (list tk) :=
  match m with
  | MPlain | MLine => Some []
  | MDash => Some [TC "-"]
  | MSlash => Some [TC "/"]
  | MQuote acc => Some [TS acc]
  | _ => None
  end.
Definition reading (r : rules) (s : string) : option (list tk) :=
  let '(o, m) := run r MPlain s in match finish m with Some e => Some (o ++ e) | None => None end.

(** A text that stands on its own: it leaves no literal, identifier or comment open *)
Definition stands (r : rules) (s : string) (o : list tk) : Prop :=
  exists a m, run r MPlain s = (a, m) /\ ((m = MPlain /\ o = a) \/ exists acc, m = MQuote acc /\ o = a ++ [TS acc]).
(** ... and does not end with a literal either *)
Definition phrase (r : rules) (s : string) (o : list tk) : Prop := run r MPlain s = (o, MPlain).
Definition no_quote_first (s : string) : bool := match s with EmptyString => true | String c _ => negb (is c "'") end.
Definition letters (s : string) : list tk := map TC (list_ascii_of_string s).

Lemma run_app r : forall a m b, run r m (a ++ b) = let '(o, m1) := run r m a in let '(o', m2) := run r m1 b in (o ++ o', m2).
Proof.
  induction a as [|c a IH]; intros m b; cbn [run append].
  - destruct (run r m b). reflexivity.
  - destruct (step r m c) as [o1 m1]. rewrite IH. destruct (run r m1 a) as [o2 m2]. destruct (run r m2 b) as [o3 m3].
    rewrite app_assoc. reflexivity.
Qed.
Lemma stands_reading r s o : stands r s o -> reading r s = Some o.
Proof.
  intros [a [m [E [[-> ->]|[acc [-> ->]]]]]]; unfold reading; rewrite E; cbn [finish]; [rewrite app_nil_r|]; reflexivity.
Qed.
Lemma phrase_stands r s o : phrase r s o -> stands r s o.
Proof. intros P. exists o, MPlain. split; [exact P|]. left. auto. Qed.
Lemma phrase_then r a oa b ob : phrase r a oa -> stands r b ob -> stands r (a ++ b) (oa ++ ob).
Proof.
  intros P [x [m [E D]]]. exists (oa ++ x), m. split.
  - rewrite run_app, P, E. reflexivity.
  - destruct D as [[-> ->]|[acc [-> ->]]]; [left; auto|]. right. exists acc. rewrite app_assoc. auto.
Qed.
Lemma quote_then r acc b : no_quote_first b = true -> b <> "" -> run r (MQuote acc) b = (TS acc :: fst (run r MPlain b), snd (run r MPlain b)).
Proof.
  destruct b as [|c b]; [congruence|]. intros N _. cbn [no_quote_first] in N. apply negb_true_iff in N.
  cbn [run step]. rewrite N. unfold after. destruct (plain_step c) as [o m]. cbn [fst snd]. destruct (run r m b). reflexivity.
Qed.
Lemma stands_then r a oa b ob : stands r a oa -> stands r b ob -> no_quote_first b = true -> stands r (a ++ b) (oa ++ ob).
Proof.
  intros [x [m [E D]]] Sb N. destruct D as [[-> ->]|[acc [-> ->]]]; [apply phrase_then; assumption|].
  destruct Sb as [y [m2 [E2 D2]]]. destruct b as [|c b].
  { cbn [run] in E2. inversion E2; subst. destruct D2 as [[_ ->]|[? [? ?]]]; [|discriminate].
    rewrite append_nil_r, app_nil_r. exists x, (MQuote acc). split; [exact E|]. right. exists acc. auto. }
  exists (x ++ TS acc :: y), m2. split.
  - rewrite run_app, E, quote_then, E2 by (auto; discriminate). reflexivity.
  - destruct D2 as [[-> ->]|[acc2 [-> ->]]]; [left|right; exists acc2]; repeat rewrite <- app_assoc; auto.
Qed.
Lemma stands_then_phrase r a oa b ob : stands r a oa -> phrase r b ob -> no_quote_first b = true -> stands r (a ++ b) (oa ++ ob).
Proof. intros A B N. apply stands_then; auto. apply phrase_stands. exact B. Qed.
(** b non empty, so the whole ends plainly *)
Lemma stands_phrase r a oa b ob : stands r a oa -> phrase r b ob -> no_quote_first b = true -> b <> "" -> phrase r (a ++ b) (oa ++ ob).
Proof.
  intros [x [m [E D]]] B N NE. unfold phrase. rewrite run_app, E. destruct D as [[-> ->]|[acc [-> ->]]].
  - rewrite B. reflexivity.
  - rewrite quote_then, B by auto. cbn [fst snd]. rewrite <- app_assoc. reflexivity.
Qed.
Lemma phrase_phrase r a oa b ob : phrase r a oa -> phrase r b ob -> phrase r (a ++ b) (oa ++ ob).
Proof. intros A B. unfold phrase. rewrite run_app, A, B. reflexivity. Qed.

(** ** Literals *)
(** A text the rules can hold between quotes when its quotes are doubled *)
Definition readable (r : rules) (v : string) : Prop :=
  (doubling r = true \/ has_char "'" v = false) /\ (backslash r = false \/ has_char "\" v = false).
Lemma add_app acc c s : (add acc c ++ s)%string = (acc ++ String c s)%string.
Proof. unfold add. rewrite append_assoc. reflexivity. Qed.
Lemma run_literal r : forall v acc b, readable r v ->
  run r (MStr acc) (doubled v ++ b) = run r (MStr (acc ++ v)) b.
Proof.
  induction v as [|c v IH]; intros acc b [D B]; [rewrite append_nil_r; reflexivity|].
  cbn [has_char] in D, B.
  assert (R : readable r v).
  { split; [destruct D as [D|D]|destruct B as [B|B]]; auto; apply orb_false_iff in D || apply orb_false_iff in B; right; tauto. }
  cbn [doubled]. unfold quote. destruct (Ascii.eqb c "'") eqn:Q.
  - apply Ascii.eqb_eq in Q. subst c. destruct D as [D|D]; [|cbn in D; discriminate].
    cbn [append run step is Ascii.eqb Bool.eqb]. unfold is. cbn. rewrite D.
    rewrite IH by exact R. rewrite add_app. destruct (run r _ b). reflexivity.
  - cbn [append run step]. unfold is. rewrite Q.
    assert (X : backslash r && Ascii.eqb c "\" = false).
    { destruct B as [->|B]; [reflexivity|]. apply orb_false_iff in B. destruct B as [B _].
      destruct (Ascii.eqb c "\"); [discriminate B|]. apply andb_false_r. }
    rewrite X. rewrite IH by exact R. rewrite add_app. destruct (run r _ b). reflexivity.
Qed.
Lemma literal_stands r v : readable r v -> stands r (quoted v) [TS v].
Proof.
  intros R. exists [], (MQuote v). split; [|right; exists v; auto].
  unfold quoted, quote. cbn [run step]. unfold plain_step, is. cbn [Ascii.eqb Bool.eqb]. cbn -[run doubled append].
  rewrite (run_literal r v "" _ R). reflexivity.
Qed.

(** ** What a comparison should read as *)
Fixpoint commas (l : list (list tk)) : list tk :=
  match l with [] => [] | [x] => x | x :: r => x ++ TC "," :: commas r end.
Definition sign (c : cmp) : list tk :=
  letters match c with CmpLt => "<" | CmpLe => "<=" | CmpEq => "=" | CmpNe => "<>" | CmpGe => ">=" | CmpGt => ">" end.
Section Shown.
  Variable r : rules.
  Variable num_str : Q -> string.
  Variable time_str : Z -> string.
  (** The tokens of the SQL of a column, of a number and of a literal SQL value *)
  Variables (col : string -> list tk) (numt : Q -> list tk) (lit : string -> list tk).
  Definition shown_value (v : cval) : list tk :=
    match v with
    | CNone => letters "null"
    | CBool b => letters (if b then "true" else "false")
    | CStr s => [TS s]
    | CNum q => numt q
    | CTime t => [TS (time_str t)]
    | CLit s => lit s
    | CStrs l => TC "[" :: commas (map (fun s => [TS s]) l) ++ [TC "]"]
    | CNums l => TC "[" :: commas (map numt l) ++ [TC "]"]
    end.
  Definition shown_set (v : cval) : list tk :=
    match v with
    | CStrs l => TC "(" :: commas (map (fun s => [TS s]) l) ++ [TC ")"]
    | CNums l => TC "(" :: commas (map numt l) ++ [TC ")"]
    | CLit s => lit s
    | _ => []
    end.
  Definition shown (f : string) (k : crit) : list tk :=
    match k with
    | KCmp c v => col f ++ sign c ++ shown_value v
    | KLike false n p => col f ++ letters (if n then " NOT LIKE " else " LIKE ") ++ [TS p]
    | KLike true n p => letters "LOWER(" ++ col f ++ letters (if n then ") NOT LIKE LOWER(" else ") LIKE LOWER(") ++ [TS p; TC ")"]
    | KIsNull => col f ++ letters " IS NULL"
    | KNotNull => letters "NOT " ++ col f ++ letters " IS NULL"
    | KIn v => col f ++ letters " IN " ++ shown_set v
    | KNotIn v => col f ++ letters " NOT IN " ++ shown_set v
    | KTrue => col f
    | KNot => letters "NOT " ++ col f
    end.
  (** The texts a value or a criterion writes between quotes *)
  Definition value_texts (v : cval) : list string :=
    match v with CStr s => [s] | CTime t => [time_str t] | CStrs l => l | _ => [] end.
  Definition texts_in (k : crit) : list string :=
    match k with KCmp _ v | KIn v | KNotIn v => value_texts v | KLike _ _ p => [p] | _ => [] end.
  Definition lits_in (k : crit) : list string :=
    match k with KCmp _ (CLit s) | KIn (CLit s) | KNotIn (CLit s) => [s] | _ => [] end.

  Hypothesis nums : forall q, phrase r (num_str q) (numt q) /\ no_quote_first (num_str q) = true.

  Lemma join_stands : forall (l : list string) (os : list (list tk)),
    Forall2 (stands r) l os -> stands r (join_with "," l) (commas os).
  Proof.
    assert (NIL : stands r "" []) by (apply phrase_stands; reflexivity).
    intros l os F. induction F as [|x o l os S F IH]; [exact NIL|].
    destruct F as [|y o2 l os S2 F].
    - exact S.
    - change (join_with "," (x :: y :: l)) with (x ++ ("," ++ join_with "," (y :: l)))%string.
      change (commas (o :: o2 :: os)) with (o ++ ([TC ","] ++ commas (o2 :: os))).
      apply stands_then; [exact S| |reflexivity]. apply phrase_then; [reflexivity | exact IH].
  Qed.
  Lemma texts_stand l : Forall (readable r) l -> Forall2 (stands r) (map quoted l) (map (fun s => [TS s]) l).
  Proof. induction 1; cbn [map]; constructor; auto. apply literal_stands. assumption. Qed.
  Lemma nums_stand l : Forall2 (stands r) (map num_str l) (map numt l).
  Proof. induction l; cbn [map]; constructor; auto. apply phrase_stands. apply nums. Qed.
  Lemma around a b x o oa ob : phrase r a oa -> stands r x o -> phrase r b ob -> no_quote_first b = true -> stands r (a ++ x ++ b) (oa ++ o ++ ob).
  Proof. intros A X B N. apply phrase_then; [exact A|]. apply stands_then_phrase; assumption. Qed.
  Lemma value_stands v : Forall (readable r) (value_texts v) -> (forall s, v = CLit s -> stands r s (lit s)) ->
    stands r (value_text num_str time_str v) (shown_value v).
  Proof.
    intros T L. destruct v as [|b|s|q|l|l|t|s]; cbn [value_text shown_value].
    - apply phrase_stands. reflexivity.
    - destruct b; apply phrase_stands; reflexivity.
    - apply literal_stands. inversion T; assumption.
    - apply phrase_stands, nums.
    - apply (around "[" "]" _ _ [TC "["] [TC "]"]); try reflexivity. apply join_stands, texts_stand. exact T.
    - apply (around "[" "]" _ _ [TC "["] [TC "]"]); try reflexivity. apply join_stands, nums_stand.
    - apply literal_stands. inversion T; assumption.
    - apply L. reflexivity.
  Qed.
  Lemma set_stands v t : Forall (readable r) (value_texts v) -> (forall s, v = CLit s -> stands r s (lit s)) ->
    tuple_text num_str v = Ok t -> stands r t (shown_set v).
  Proof.
    intros T L E. destruct v as [|b|s|q|l|l|z|s]; cbn [tuple_text] in E; inversion E; subst; cbn [shown_set].
    - apply (around "(" ")" _ _ [TC "("] [TC ")"]); try reflexivity. apply join_stands, texts_stand. exact T.
    - apply (around "(" ")" _ _ [TC "("] [TC ")"]); try reflexivity. apply join_stands, nums_stand.
    - apply L. reflexivity.
  Qed.
  Lemma ok_inj {A} (a b : A) : Ok a = Ok b -> a = b.
  Proof. intros E. inversion E. reflexivity. Qed.
  Lemma comparison_stands f k s : stands r f (col f) -> Forall (readable r) (texts_in k) ->
    (forall x, In x (lits_in k) -> stands r x (lit x)) -> criterion_text num_str time_str f k = Ok s -> stands r s (shown f k).
  Proof.
    intros F T L E. destruct k as [c v|fold n p| | |v|v| |]; cbn [criterion_text] in E.
    - apply ok_inj in E; subst s. cbn [shown]. apply stands_then; [exact F| |destruct c; reflexivity].
      apply phrase_then; [destruct c; reflexivity|]. apply value_stands; [exact T|]. intros x ->. apply L. left. reflexivity.
    - assert (P : readable r p) by (inversion T; assumption). apply literal_stands in P.
      destruct fold; apply ok_inj in E; subst s; cbn [shown].
      + apply phrase_then; [reflexivity|].
        replace (f ++ ")" ++ like_text n ++ "LOWER(" ++ quoted p ++ ")")%string with (f ++ ((if n then ") NOT LIKE LOWER(" else ") LIKE LOWER(") ++ (quoted p ++ ")")))%string by (destruct n; reflexivity).
        apply stands_then; [exact F| |destruct n; reflexivity]. apply phrase_then; [destruct n; reflexivity|].
        change [TS p; TC ")"] with ([TS p] ++ [TC ")"]). apply stands_then_phrase; [exact P|reflexivity|reflexivity].
      + apply stands_then; [exact F| |destruct n; reflexivity]. apply phrase_then; [destruct n; reflexivity|exact P].
    - apply ok_inj in E; subst s. apply stands_then_phrase; [exact F|reflexivity|reflexivity].
    - apply ok_inj in E; subst s. apply phrase_then; [reflexivity|]. apply stands_then_phrase; [exact F|reflexivity|reflexivity].
    - apply bind_ok in E. destruct E as [t [E1 E2]]. apply ok_inj in E2; subst s. apply stands_then; [exact F| |reflexivity].
      apply phrase_then; [reflexivity|]. apply set_stands; auto. intros x ->. apply L. left. reflexivity.
    - apply bind_ok in E. destruct E as [t [E1 E2]]. apply ok_inj in E2; subst s. apply stands_then; [exact F| |reflexivity].
      apply phrase_then; [reflexivity|]. apply set_stands; auto. intros x ->. apply L. left. reflexivity.
    - apply ok_inj in E; subst s. exact F.
    - apply ok_inj in E; subst s. apply phrase_then; [reflexivity|exact F].
  Qed.

  (** ** A clause: words and brackets around comparisons *)
  Notation atom := (string * crit)%type.
  Definition word (t : tok atom) : list tk :=
    match t with
    | TAtom (f, k) => shown f k
    | TAnd => letters " AND "
    | TOr => letters " OR "
    | TOpen => [TC "("]
    | TClose => [TC ")"]
    end.
  Definition shown_clause (ts : list (tok atom)) : list tk := List.concat (map word ts).
  (** No comparison stands right after another *)
  Fixpoint apart (after_atom : bool) (ts : list (tok atom)) : bool :=
    match ts with
    | [] => true
    | TAtom _ :: ts => negb after_atom && apart true ts
    | _ :: ts => apart false ts
    end.
  Definition fine (a : atom) : Prop :=
    stands r (fst a) (col (fst a)) /\ Forall (readable r) (texts_in (snd a)) /\ (forall x, In x (lits_in (snd a)) -> stands r x (lit x)).
  Lemma print_stands : forall ts s, (forall a, In (TAtom a) ts -> fine a) -> print num_str time_str ts = Ok s ->
    (apart false ts = true -> stands r s (shown_clause ts)) /\ (apart true ts = true -> stands r s (shown_clause ts) /\ no_quote_first s = true).
  Proof.
    induction ts as [|t ts IH]; intros s H E; cbn [print] in E.
    { apply ok_inj in E. subst s. assert (X : stands r "" (shown_clause [])) by (apply phrase_stands; reflexivity). auto. }
    apply bind_ok in E. destruct E as [x [E1 E]]. apply bind_ok in E. destruct E as [y [E2 E]]. apply ok_inj in E. subst s.
    assert (H' : forall a, In (TAtom a) ts -> fine a) by (intros a I; apply H; right; exact I).
    destruct (IH y H' E2) as [IH1 IH2].
    unfold shown_clause. cbn [map List.concat]. fold (shown_clause ts).
    destruct t as [[f k]| | | |]; cbn [tok_text word] in *.
    - destruct (H (f, k) (or_introl eq_refl)) as [F [T L]]. cbn [fst snd] in F, T, L.
      split; [|discriminate]. intros A. cbn [apart] in A. destruct (IH2 A) as [S N].
      apply stands_then; [|exact S|exact N]. apply comparison_stands; assumption.
    - apply ok_inj in E1; subst x. cbn [apart]. split; intros A; [|split; [|reflexivity]]; (apply phrase_then; [reflexivity|auto]).
    - apply ok_inj in E1; subst x. cbn [apart]. split; intros A; [|split; [|reflexivity]]; (apply phrase_then; [reflexivity|auto]).
    - apply ok_inj in E1; subst x. cbn [apart]. split; intros A; [|split; [|reflexivity]]; (apply phrase_then; [reflexivity|auto]).
    - apply ok_inj in E1; subst x. cbn [apart]. split; intros A; [|split; [|reflexivity]]; (apply phrase_then; [reflexivity|auto]).
  Qed.
End Shown.

(** ** Clauses of alike filters are alike *)
Definition res_rel {X Y} (Q : X -> Y -> Prop) (a : res X) (b : res Y) : Prop :=
  match a, b with Ok x, Ok y => Q x y | Err e, Err e' => e = e' | _, _ => False end.
Lemma rel_bind {X Y X2 Y2} (Q : X -> Y -> Prop) (Q2 : X2 -> Y2 -> Prop) a b f g :
  res_rel Q a b -> (forall x y, Q x y -> res_rel Q2 (f x) (g y)) -> res_rel Q2 (bind a f) (bind b g).
Proof. destruct a, b; cbn; intros R H; try contradiction; auto. Qed.
Lemma rel_mapM {X Y X2 Y2} (Q : X -> Y -> Prop) (Q2 : X2 -> Y2 -> Prop) f g l m :
  Forall2 Q l m -> (forall x y, In x l -> Q x y -> res_rel Q2 (f x) (g y)) -> res_rel (Forall2 Q2) (mapM f l) (mapM g m).
Proof.
  induction 1 as [|x y l m H F IH]; intros K; [constructor|]. cbn [mapM].
  apply (rel_bind Q2); [apply K; [left; reflexivity|exact H]|]. intros u v UV.
  apply (rel_bind (Forall2 Q2)); [apply IH; intros; apply K; [right|]; assumption|]. intros us vs F2. constructor; assumption.
Qed.
Inductive no_literal {A} : pcrit A -> Prop :=
| nl_atom a : no_literal (PAtom a)
| nl_bin o x y : no_literal x -> no_literal y -> no_literal (PBin o x y)
| nl_empty : no_literal PEmpty.
Section Alike.
  Context {A B L M : Type}.
  Variable leafR : L -> M -> Prop.
  Variable R : A -> B -> Prop.
  Inductive alike : ftree A L -> ftree B M -> Prop :=
  | alike_leaf l m : leafR l m -> alike (FLeaf l) (FLeaf m)
  | alike_group op c d : Forall2 alike c d -> alike (FGroup op c) (FGroup op d).
  Inductive palike : pcrit A -> pcrit B -> Prop :=
  | pa_atom a b : R a b -> palike (PAtom a) (PAtom b)
  | pa_bin o x y x' y' : palike x x' -> palike y y' -> palike (PBin o x y) (PBin o x' y')
  | pa_empty : palike PEmpty PEmpty.
  Inductive tok_alike : tok A -> tok B -> Prop :=
  | ta_atom a b : R a b -> tok_alike (TAtom a) (TAtom b)
  | ta_and : tok_alike TAnd TAnd
  | ta_or : tok_alike TOr TOr
  | ta_open : tok_alike TOpen TOpen
  | ta_close : tok_alike TClose TClose.
  Variables (ok1 : L -> res unit) (ok2 : M -> res unit) (cmp1 : L -> res (list A)) (cmp2 : M -> res (list B)).
  Hypothesis ok_same : forall l m, leafR l m -> ok1 l = ok2 m.
  Hypothesis cmp_alike : forall l m, leafR l m -> res_rel (Forall2 R) (cmp1 l) (cmp2 m).

  Lemma validate_alike f : forall g, alike f g -> res_rel eq (Clause_Model.validate ok1 f) (Clause_Model.validate ok2 g).
  Proof.
    induction f as [l|ts|op conds IH] using ftree_ind'; intros g H; inversion H as [l' m LM|op' c d F]; subst.
    - cbn [Clause_Model.validate]. rewrite (ok_same l m LM). destruct (ok2 m); reflexivity.
    - destruct F as [|x y c d XY F]; [reflexivity|].
      rewrite !validate_group by discriminate.
      apply (rel_bind (Forall2 eq)).
      + apply (rel_mapM alike); [constructor; assumption|]. intros u v I UV. rewrite Forall_forall in IH. apply IH; assumption.
      + intros _ _ _. destruct op as [o|]; [destruct (mem o ["AND"; "OR"])|]; reflexivity.
  Qed.
  Lemma pbin_alike o x y x' y' : palike x x' -> palike y y' -> palike (pbin o x y) (pbin o x' y').
  Proof. intros X Y. destruct X; cbn [pbin]; try constructor; try assumption; constructor; assumption. Qed.
  Lemma fold_alike o l m : Forall2 palike l m -> forall x y, palike x y -> palike (fold_left (pbin o) l x) (fold_left (pbin o) m y).
  Proof. induction 1; intros; cbn [fold_left]; auto. apply IHForall2. apply pbin_alike; assumption. Qed.
  Lemma group_alike f : forall g, alike f g -> res_rel palike (group_sql_query cmp1 f) (group_sql_query cmp2 g).
  Proof.
    induction f as [l|ts|op conds IH] using ftree_ind'; intros g H; inversion H as [l' m LM|op' c d F]; subst.
    - cbn [group_sql_query]. unfold Clause_Model.criterion. apply (rel_bind (Forall2 R)); [apply cmp_alike; exact LM|].
      intros x y XY. cbn [res_rel]. apply fold_alike; [|constructor]. induction XY; cbn [map]; constructor; auto. constructor; assumption.
    - rewrite !group_sql_group. apply (rel_bind (Forall2 palike)).
      + apply (rel_mapM alike); [exact F|]. intros u v I UV. rewrite Forall_forall in IH. apply IH; assumption.
      + intros x y XY. assert (AL : palike (criterion_all x) (criterion_all y)) by (apply fold_alike; [exact XY|constructor]).
        assert (AN : palike (criterion_any x) (criterion_any y)) by (apply fold_alike; [exact XY|constructor]).
        destruct op as [o|]; [|exact AL]. destruct (String.eqb o "OR"); [exact AN|]. destruct (String.eqb o "AND"); [exact AL|reflexivity].
  Qed.
  Lemma filter_alike f g : alike f g -> res_rel palike (filter_sql ok1 cmp1 f) (filter_sql ok2 cmp2 g).
  Proof.
    intros H. unfold filter_sql. apply (rel_bind eq); [apply validate_alike; exact H|]. intros _ _ _.
    pose proof (group_alike f g H) as G. destruct H; exact G.
  Qed.
  Lemma brackets_alike o x y : palike x y -> needs_brackets o x = needs_brackets o y.
  Proof. destruct 1; reflexivity. Qed.
  Lemma sql_alike x y : palike x y -> forall sub, res_rel (Forall2 tok_alike) (get_sql sub x) (get_sql sub y).
  Proof.
    induction 1 as [a b AB|o x y x' y' X IHX Y IHY|]; intros sub.
    - cbn. constructor; [constructor; exact AB|constructor].
    - cbn [get_sql]. rewrite (brackets_alike o _ _ X), (brackets_alike o _ _ Y).
      apply (rel_bind (Forall2 tok_alike)); [apply IHX|]. intros u v UV.
      apply (rel_bind (Forall2 tok_alike)); [apply IHY|]. intros u' v' UV'.
      assert (S : Forall2 tok_alike (u ++ op_tok o :: u') (v ++ op_tok o :: v')).
      { apply Forall2_app; [exact UV|]. constructor; [destruct o; constructor|exact UV']. }
      destruct sub; [|exact S]. cbn. constructor; [constructor|]. apply Forall2_app; [exact S|]. constructor; constructor.
    - reflexivity.
  Qed.
  Definition opt_rel {X Y} (Q : X -> Y -> Prop) (a : option X) (b : option Y) : Prop :=
    match a, b with Some x, Some y => Q x y | None, None => True | _, _ => False end.
  Lemma where_alike fs gs : Forall2 alike fs gs ->
    res_rel (opt_rel (Forall2 tok_alike)) (where_sql ok1 cmp1 None (ListWhere fs)) (where_sql ok2 cmp2 None (ListWhere gs)).
  Proof.
    intros F. unfold where_sql. cbn [parse_filter_object app]. apply (rel_bind (Forall2 palike)).
    - apply (rel_mapM alike); [exact F|]. intros x y _ XY. apply filter_alike. exact XY.
    - intros x y XY. assert (AL : palike (criterion_all x) (criterion_all y)) by (apply fold_alike; [exact XY|constructor]).
      pose proof (sql_alike _ _ AL false) as S. destruct AL; [| |exact I];
      (apply (rel_bind (Forall2 tok_alike)); [exact S|]; intros u v UV; exact UV).
  Qed.
  Lemma palike_no_literal x y : palike x y -> no_literal x.
  Proof. induction 1; constructor; assumption. Qed.
  Lemma where_source fs gs ts : Forall2 alike fs gs -> where_sql ok1 cmp1 None (ListWhere fs) = Ok (Some ts) ->
    exists c, no_literal c /\ get_sql false c = Ok ts.
  Proof.
    intros F E. unfold where_sql in E. cbn [parse_filter_object app] in E. apply bind_ok in E. destruct E as [cs [E1 E2]].
    assert (K : res_rel (Forall2 palike) (mapM (filter_sql ok1 cmp1) fs) (mapM (filter_sql ok2 cmp2) gs)).
    { apply (rel_mapM alike); [exact F|]. intros x y _ XY. apply filter_alike. exact XY. }
    rewrite E1 in K. destruct (mapM (filter_sql ok2 cmp2) gs) as [ds|]; [|contradiction]. cbn [res_rel] in K.
    assert (AL : palike (criterion_all cs) (criterion_all ds)) by (apply fold_alike; [exact K|constructor]).
    exists (criterion_all cs). split; [eapply palike_no_literal; exact AL|].
    destruct (criterion_all cs) eqn:C; try discriminate; apply bind_ok in E2; destruct E2 as [ts' [E2 E3]]; inversion E3; subst; exact E2.
  Qed.
End Alike.

(** No two comparisons of a printed criterion touch *)
Lemma apart_app a b (o : bop) : forall x, apart x a = true -> apart false b = true -> apart x (a ++ op_tok o :: b) = true.
Proof.
  induction a as [|t a IH]; intros x H B; cbn [app].
  - destruct o; exact B.
  - destruct t; cbn [apart] in *; auto. apply andb_true_iff in H. destruct H as [-> H]. cbn [andb]. auto.
Qed.
Lemma apart_close a : forall x, apart x a = true -> apart x (a ++ [TClose]) = true.
Proof.
  induction a as [|t a IH]; intros x H; cbn [app]; [reflexivity|].
  destruct t; cbn [apart] in *; auto. apply andb_true_iff in H. destruct H as [-> H]. cbn [andb]. auto.
Qed.
Lemma sql_apart (c : pcrit (string * crit)) : no_literal c -> forall sub ts, get_sql sub c = Ok ts -> apart false ts = true.
Proof.
  induction 1 as [a|o x y X IHX Y IHY|]; intros sub ts E; cbn [get_sql] in E; try discriminate.
  - inversion E. reflexivity.
  - apply bind_ok in E. destruct E as [u [EU E]]. apply bind_ok in E. destruct E as [v [EV E]].
    pose proof (apart_app u v o false (IHX _ _ EU) (IHY _ _ EV)) as P.
    destruct sub; apply ok_inj in E; subst ts; [|exact P]. cbn [apart]. apply apart_close. exact P.
Qed.

(** ** The texts of a clause *)
Lemma standard_readable r v : backslash r = false -> doubling r = true -> readable r v.
Proof. intros B D. split; left; assumption. Qed.
Definition standard : list string := ["POSTGRES"; "DRUID"; "DUCK_DB"; "SQL_SERVER"; "AZURE_SYNAPSE"; "TRINO"].
Lemma standard_rules qt : In qt standard -> backslash (rules_of qt) = false /\ doubling (rules_of qt) = true.
Proof. intros I. cbn in I. repeat (destruct I as [<-|I]; [split; reflexivity|]). contradiction. Qed.

Inductive leaves_only {A L} (P : L -> Prop) : ftree A L -> Prop :=
| lo_leaf l : P l -> leaves_only P (FLeaf l)
| lo_group op c : Forall (leaves_only P) c -> leaves_only P (FGroup op c).
Lemma leaves_alike {A L} (P : L -> Prop) f : leaves_only P f -> alike (fun l m => l = m /\ P l) (f : ftree A L) f.
Proof.
  induction f as [l|ts|op conds IH] using ftree_ind'; intros H; inversion H as [l' K|op' c' K]; subst; constructor.
  - auto.
  - induction conds as [|x conds IHc]; constructor.
    + inversion IH; inversion K; subst. auto.
    + inversion IH; inversion K; subst. apply IHc; auto. constructor. assumption.
Qed.
(** every comparison of the condition [d] writes texts the warehouse can hold, and its literal SQL stands on its own *)
Definition harmless (r : rules) (time_str : Z -> string) (lit : string -> list tk) (ks : list crit) : Prop :=
  Forall (fun k => Forall (readable r) (texts_in time_str k) /\ forall x, In x (lits_in k) -> stands r x (lit x)) ks.

Section Where.
  Variables (num_str : Q -> string) (time_str : Z -> string) (repr : cval -> string).
  Variables (qt : string) (get_field : string -> res cfield) (value_sql : string -> res string).
  Variables (matched : cval -> res (list cond)) (num : string -> res Q) (column : string -> string).
  Variables (col : string -> list tk) (numt : Q -> list tk) (lit : string -> list tk).
  Let r := rules_of qt.
  Let wtext := where_text num_str time_str repr qt get_field value_sql matched num column.
  Let cmps := comparisons qt get_field value_sql (datatype_cast time_str repr) matched num.
  Let ats := atoms time_str repr qt get_field value_sql matched num column.
  Let lok := leaf_ok time_str repr qt get_field value_sql.
  Hypothesis nums : forall q, phrase r (num_str q) (numt q) /\ no_quote_first (num_str q) = true.
  Hypothesis cols : forall k, stands r (column k) (col (column k)).

  Lemma atoms_fine d : (forall ks, cmps d = Ok ks -> harmless r time_str lit ks) -> cd_field d <> None ->
    res_rel (Forall2 (fun a b => a = b /\ fine r time_str col lit a)) (ats d) (ats d).
  Proof.
    intros H NF. unfold ats, atoms. fold cmps. destruct (cmps d) as [ks|e] eqn:E; [|reflexivity]. cbn [bind res_rel].
    specialize (H ks eq_refl). destruct (cd_field d) as [n|]; [|congruence]. clear E.
    induction H as [|k ks [T L] F IH]; cbn [map]; constructor; auto. split; [reflexivity|].
    split; [apply cols|]. split; [exact T|exact L].
  Qed.
  Lemma same_atoms ts : forall ts', Forall2 (tok_alike (fun a b : string * crit => a = b /\ fine r time_str col lit a)) ts ts' ->
    forall a, In (TAtom a) ts -> fine r time_str col lit a.
  Proof.
    induction 1 as [|t t' ts ts' T F IH]; intros a I; [destruct I|]. destruct I as [->|I]; [|apply IH; exact I].
    inversion T as [x y [_ P]| | | |]; subst. exact P.
  Qed.

  Lemma where_reads fs text : Forall (leaves_only (fun d => cd_field d <> None /\ forall ks, cmps d = Ok ks -> harmless r time_str lit ks)) fs ->
    wtext fs = Ok (Some text) ->
    exists ts, where_sql lok ats None (ListWhere fs) = Ok (Some ts) /\ print num_str time_str ts = Ok text /\
      reading r text = Some (shown_clause time_str col numt lit ts).
  Proof.
    intros H E. unfold wtext, where_text in E. apply bind_ok in E. destruct E as [[ts|] [E1 E2]]; [|discriminate].
    apply bind_ok in E2. destruct E2 as [s [E2 E3]]. inversion E3; subst s. exists ts. split; [exact E1|]. split; [exact E2|].
    assert (F : Forall2 (alike (A := string * crit) (B := string * crit) (fun l m => l = m /\ (cd_field l <> None /\ forall ks, cmps l = Ok ks -> harmless r time_str lit ks))) fs fs).
    { clear E1 E2. induction H; constructor; auto. apply leaves_alike. assumption. }
    assert (O : forall l m : cdef, l = m /\ (cd_field l <> None /\ forall ks, cmps l = Ok ks -> harmless r time_str lit ks) -> lok l = lok m) by (intros l m [-> _]; reflexivity).
    assert (C : forall l m : cdef, l = m /\ (cd_field l <> None /\ forall ks, cmps l = Ok ks -> harmless r time_str lit ks) ->
       res_rel (Forall2 (fun a b => a = b /\ fine r time_str col lit a)) (ats l) (ats m)).
    { intros l m [<- [N K]]. apply atoms_fine; assumption. }
    destruct (where_source _ _ lok lok ats ats O C fs fs ts F E1) as [c [NL G]].
    pose proof (where_alike _ _ lok lok ats ats O C fs fs F) as W. change (leaf_ok _ _ _ _ _) with lok in E1. change (atoms _ _ _ _ _ _ _ _) with ats in E1. rewrite E1 in W. cbn [res_rel opt_rel] in W.
    apply stands_reading.
    destruct (print_stands r num_str time_str col numt lit nums ts text (same_atoms _ _ W) E2) as [K _].
    apply K. apply (sql_apart c NL false). exact G.
  Qed.
End Where.

(** What the warehouse reads in the WHERE clause is what the conditions say: the SQL of the columns, the operators, the
    brackets, and one literal for each text, with exactly the text the user gave - for every warehouse, as long as the
    texts can be held by its literals ([readable]: no backslash where a backslash escapes; no quote where two quotes are
    not one quote). *)
Theorem C76_reads :
  forall num_str time_str repr qt get_field value_sql matched num column col numt lit,
    (forall q, phrase (rules_of qt) (num_str q) (numt q) /\ no_quote_first (num_str q) = true) ->
    (forall k, stands (rules_of qt) (column k) (col (column k))) ->
    forall fs text,
    Forall (leaves_only (fun d => cd_field d <> None /\ forall ks, comparisons qt get_field value_sql (datatype_cast time_str repr) matched num d = Ok ks ->
                                  harmless (rules_of qt) time_str lit ks)) fs ->
    where_text num_str time_str repr qt get_field value_sql matched num column fs = Ok (Some text) ->
    exists ts, where_sql (leaf_ok time_str repr qt get_field value_sql) (atoms time_str repr qt get_field value_sql matched num column) None (ListWhere fs) = Ok (Some ts) /\
      reading (rules_of qt) text = Some (shown_clause time_str col numt lit ts).
Proof.
  intros num_str time_str repr qt get_field value_sql matched num column col numt lit N C fs text H E.
  destruct (where_reads num_str time_str repr qt get_field value_sql matched num column col numt lit N C fs text H E) as [ts [E1 [_ E2]]].
  exists ts. auto.
Qed.
Print Assumptions C76_reads.

(** One condition on a text: what is read before the column, between the column and the literal, the contents of the
    literal around the text the user gave, and what is read after it *)
Definition spelling (e : string) : option (string * string * string * string * string) :=
  assoc e
    [("less_than", ("", "<", "", "", "")); ("less_or_equal_than", ("", "<=", "", "", "")); ("equal_to", ("", "=", "", "", ""));
     ("not_equal_to", ("", "<>", "", "", "")); ("greater_or_equal_than", ("", ">=", "", "", "")); ("greater_than", ("", ">", "", "", ""));
     ("like", ("", " LIKE ", "", "", ""));
     ("contains", ("", " LIKE ", "%", "%", "")); ("does_not_contain", ("", " NOT LIKE ", "%", "%", ""));
     ("starts_with", ("", " LIKE ", "", "%", "")); ("does_not_start_with", ("", " NOT LIKE ", "", "%", ""));
     ("ends_with", ("", " LIKE ", "%", "", "")); ("does_not_end_with", ("", " NOT LIKE ", "%", "", ""));
     ("contains_case_insensitive", ("LOWER(", ") LIKE LOWER(", "%", "%", ")"));
     ("does_not_contain_case_insensitive", ("LOWER(", ") NOT LIKE LOWER(", "%", "%", ")"));
     ("starts_with_case_insensitive", ("LOWER(", ") LIKE LOWER(", "", "%", ")"));
     ("does_not_start_with_case_insensitive", ("LOWER(", ") NOT LIKE LOWER(", "", "%", ")"));
     ("ends_with_case_insensitive", ("LOWER(", ") LIKE LOWER(", "%", "", ")"));
     ("does_not_end_with_case_insensitive", ("LOWER(", ") NOT LIKE LOWER(", "%", "", ")"))].
(** A text is the name of a field when it has a dot and the project finds its SQL *)
Definition no_name (value_sql : string -> res string) (s : string) : Prop := has_char dot s = false \/ exists e, value_sql s = Err e.
Lemma field_value_text value_sql s : no_name value_sql s -> field_value value_sql (Some (CStr s)) = Some (CStr s).
Proof. unfold no_name. intros N. cbn [field_value]. destruct (has_char dot s); [|reflexivity]. destruct N as [N|[e ->]]; [discriminate|reflexivity]. Qed.
Lemma check_text e k s : e <> "UNKNOWN" -> check_expression (CDef (Some k) (Some e) (Some (CStr s))) = Ok tt.
Proof.
  intros NU. unfold check_expression. cbn [cd_expression cd_value].
  repeat match goal with |- (match ?s with _ => _ end) = Ok tt => match type of s with string => destruct s | ascii => destruct s | bool => destruct s end; try reflexivity end; congruence.
Qed.
Lemma comparisons_text qt get value_sql cast matched num k e s f :
  get k = Ok f -> cf_type f <> "yesno" -> e <> "UNKNOWN" -> e <> "matches" -> no_name value_sql s ->
  comparisons qt get value_sql cast matched num (CDef (Some k) (Some e) (Some (CStr s))) =
  (c <- match parse_expression e with EMatches => Err QueryError | x => Filter_Model.criterion num (String.eqb (cf_type f) "number") x (CStr s) end ;; Ok [c]).
Proof.
  intros G NY NU NM N. unfold comparisons, validate. rewrite check_text by exact NU. cbn [check cd_field cd_expression bind cd_value].
  rewrite G. cbn [bind]. rewrite field_value_text by exact N.
  assert (CV : cast_value qt cast f (Some (CStr s)) = Ok (Some (CStr s))) by (unfold cast_value; destruct (needs_datetime_cast qt); reflexivity).
  rewrite CV. cbn [bind]. unfold yesno. destruct (String.eqb_spec (cf_type f) "yesno"); [congruence|]. cbn [bind].
  assert (P : parse_expression e <> EMatches).
  { unfold parse_expression. intros H. destruct (assoc e expression_names) as [x|] eqn:A; [|discriminate]. subst x.
    apply assoc_In in A. unfold expression_names in A. cbn [In] in A.
    repeat (destruct A as [A|A]; [inversion A; subst; congruence|]). contradiction. }
  destruct (parse_expression e); try reflexivity. congruence.
Qed.

Theorem C76_condition :
  forall num_str time_str repr qt get_field value_sql matched num column k f e before between left right afterwards s o,
    get_field k = Ok f -> cf_type f <> "yesno" -> spelling e = Some (before, between, left, right, afterwards) ->
    no_name value_sql s -> readable (rules_of qt) s -> stands (rules_of qt) (column k) o ->
    exists text, where_text num_str time_str repr qt get_field value_sql matched num column [FLeaf (CDef (Some k) (Some e) (Some (CStr s)))] = Ok (Some text) /\
      reading (rules_of qt) text = Some (letters before ++ o ++ letters between ++ [TS (left ++ s ++ right)%string] ++ letters afterwards).
Proof.
  intros num_str time_str repr qt get value_sql matched num column k f e before between left right afterwards s o G NY SP N R SC.
  assert (E : e <> "UNKNOWN" /\ e <> "matches") by (split; intros ->; discriminate SP).
  destruct E as [NU NM].
  assert (V : validate qt get value_sql (datatype_cast time_str repr) (CDef (Some k) (Some e) (Some (CStr s))) = Ok (Some f, parse_expression e, CStr s)).
  { unfold validate. rewrite check_text by exact NU. cbn [check cd_field cd_expression bind cd_value]. rewrite G. cbn [bind].
    rewrite field_value_text by exact N.
    assert (CV : cast_value qt (datatype_cast time_str repr) f (Some (CStr s)) = Ok (Some (CStr s))) by (unfold cast_value; destruct (needs_datetime_cast qt); reflexivity).
    rewrite CV. cbn [bind]. unfold yesno. destruct (String.eqb_spec (cf_type f) "yesno"); [congruence|]. reflexivity. }
  pose proof (comparisons_text qt get value_sql (datatype_cast time_str repr) matched num k e s f G NY NU NM N) as C.
  assert (W : forall c, (c <- match parse_expression e with EMatches => Err QueryError | x => Filter_Model.criterion num (String.eqb (cf_type f) "number") x (CStr s) end ;; Ok [c]) = Ok [c] ->
     where_text num_str time_str repr qt get value_sql matched num column [FLeaf (CDef (Some k) (Some e) (Some (CStr s)))] =
     (t <- criterion_text num_str time_str (column k) c ;; Ok (Some t))).
  { intros c EC. rewrite EC in C. unfold where_text, where_sql. cbn [parse_filter_object app mapM]. unfold filter_sql. cbn [Clause_Model.validate].
    unfold leaf_ok. rewrite V. cbn [bind group_sql_query]. unfold Clause_Model.criterion, atoms. rewrite C. cbn [bind map cd_field].
    cbn. destruct (criterion_text num_str time_str (column k) c); cbn; [rewrite append_nil_r|]; reflexivity. }
  assert (RD : forall a b, has_char "'" (a ++ b)%string = false -> has_char "\" (a ++ b)%string = false -> readable (rules_of qt) (a ++ s ++ b)%string).
  { intros a b H1 H2. rewrite has_char_app in H1, H2. apply orb_false_iff in H1. apply orb_false_iff in H2. destruct R as [D B].
    destruct H1 as [A1 B1]. destruct H2 as [A2 B2].
    split; [destruct D as [D|D]; [left; exact D|right; rewrite !has_char_app, A1, B1, D; reflexivity]
           |destruct B as [B|B]; [left; exact B|right; rewrite !has_char_app, A2, B2, B; reflexivity]]. }
  assert (K : forall c t, (c <- match parse_expression e with EMatches => Err QueryError | x => Filter_Model.criterion num (String.eqb (cf_type f) "number") x (CStr s) end ;; Ok [c]) = Ok [c] ->
     criterion_text num_str time_str (column k) c = Ok t ->
     stands (rules_of qt) t (letters before ++ o ++ letters between ++ [TS (left ++ s ++ right)%string] ++ letters afterwards) ->
     exists text, where_text num_str time_str repr qt get value_sql matched num column [FLeaf (CDef (Some k) (Some e) (Some (CStr s)))] = Ok (Some text) /\
      reading (rules_of qt) text = Some (letters before ++ o ++ letters between ++ [TS (left ++ s ++ right)%string] ++ letters afterwards)).
  { intros c t EC ET ST. exists t. split; [|apply stands_reading; exact ST]. rewrite (W c EC), ET. reflexivity. }
  assert (S0 : forall u mid, readable (rules_of qt) u -> phrase (rules_of qt) mid (letters mid) -> no_quote_first mid = true -> mid <> "" ->
     stands (rules_of qt) (column k ++ mid ++ quoted u) (o ++ letters mid ++ [TS u])).
  { intros u mid RU PM NQ NE. apply stands_then; [exact SC| |destruct mid; [congruence|exact NQ]].
    apply phrase_then; [exact PM|]. apply literal_stands. exact RU. }
  assert (S1 : forall u mid, readable (rules_of qt) u -> phrase (rules_of qt) mid (letters mid) -> no_quote_first mid = true -> mid <> "" ->
     stands (rules_of qt) ("LOWER(" ++ column k ++ mid ++ quoted u ++ ")") (letters "LOWER(" ++ o ++ letters mid ++ [TS u] ++ [TC ")"])).
  { intros u mid RU PM NQ NE. apply phrase_then; [reflexivity|]. apply stands_then; [exact SC| |destruct mid; [congruence|exact NQ]].
    apply phrase_then; [exact PM|]. apply stands_then_phrase; [apply literal_stands; exact RU|reflexivity|reflexivity]. }
  unfold spelling in SP. apply assoc_In in SP. cbn [In] in SP.
  repeat (destruct SP as [SP|SP]; [inversion SP; subst e before between left right afterwards|]); [..|contradiction].
  all: eapply K; [reflexivity|reflexivity|].
  all: rewrite ?append_nil_r.
  all: pose proof (RD "%" "%" eq_refl eq_refl) as R1; pose proof (RD "" "%" eq_refl eq_refl) as R2; pose proof (RD "%" "" eq_refl eq_refl) as R3; rewrite append_nil_r in R3.
  1: exact (S0 s "<" R eq_refl eq_refl ltac:(discriminate)).
  1: exact (S0 s "<=" R eq_refl eq_refl ltac:(discriminate)).
  1: exact (S0 s "=" R eq_refl eq_refl ltac:(discriminate)).
  1: exact (S0 s "<>" R eq_refl eq_refl ltac:(discriminate)).
  1: exact (S0 s ">=" R eq_refl eq_refl ltac:(discriminate)).
  1: exact (S0 s ">" R eq_refl eq_refl ltac:(discriminate)).
  1: exact (S0 s " LIKE " R eq_refl eq_refl ltac:(discriminate)).
  1: exact (S0 _ " LIKE " R1 eq_refl eq_refl ltac:(discriminate)).
  1: exact (S0 _ " NOT LIKE " R1 eq_refl eq_refl ltac:(discriminate)).
  1: exact (S0 _ " LIKE " R2 eq_refl eq_refl ltac:(discriminate)).
  1: exact (S0 _ " NOT LIKE " R2 eq_refl eq_refl ltac:(discriminate)).
  1: exact (S0 _ " LIKE " R3 eq_refl eq_refl ltac:(discriminate)).
  1: exact (S0 _ " NOT LIKE " R3 eq_refl eq_refl ltac:(discriminate)).
  1: exact (S1 _ ") LIKE LOWER(" R1 eq_refl eq_refl ltac:(discriminate)).
  1: exact (S1 _ ") NOT LIKE LOWER(" R1 eq_refl eq_refl ltac:(discriminate)).
  1: exact (S1 _ ") LIKE LOWER(" R2 eq_refl eq_refl ltac:(discriminate)).
  1: exact (S1 _ ") NOT LIKE LOWER(" R2 eq_refl eq_refl ltac:(discriminate)).
  1: exact (S1 _ ") LIKE LOWER(" R3 eq_refl eq_refl ltac:(discriminate)).
  1: exact (S1 _ ") NOT LIKE LOWER(" R3 eq_refl eq_refl ltac:(discriminate)).
Qed.
Print Assumptions C76_condition.

(** ** The shape of the statement does not depend on the texts *)
Definition blank (t : tk) : tk := match t with TS _ => TS "" | t => t end.
Definition shape (l : list tk) : list tk := map blank l.
(** Two requests that differ only in the texts of their conditions *)
Inductive retyped (get_field : string -> res cfield) (value_sql : string -> res string) : cdef -> cdef -> Prop :=
| retyped_text k e s t : (forall f, get_field k = Ok f -> cf_type f <> "yesno") -> e <> "matches" -> no_name value_sql s -> no_name value_sql t ->
    retyped get_field value_sql (CDef (Some k) (Some e) (Some (CStr s))) (CDef (Some k) (Some e) (Some (CStr t)))
| retyped_list k e s t : (forall f, get_field k = Ok f -> cf_type f <> "yesno" /\ cf_type f <> "number") -> In e ["isin"; "isnotin"] -> List.length s = List.length t ->
    retyped get_field value_sql (CDef (Some k) (Some e) (Some (CStrs s))) (CDef (Some k) (Some e) (Some (CStrs t))).

Inductive crit_retyped : crit -> crit -> Prop :=
| cr_cmp c s t : crit_retyped (KCmp c (CStr s)) (KCmp c (CStr t))
| cr_like fold n s t : crit_retyped (KLike fold n s) (KLike fold n t)
| cr_null : crit_retyped KIsNull KIsNull
| cr_not_null : crit_retyped KNotNull KNotNull
| cr_true : crit_retyped KTrue KTrue
| cr_not : crit_retyped KNot KNot
| cr_in1 s t : crit_retyped (KIn (CStr s)) (KIn (CStr t))
| cr_notin1 s t : crit_retyped (KNotIn (CStr s)) (KNotIn (CStr t))
| cr_in s t : List.length s = List.length t -> crit_retyped (KIn (CStrs s)) (KIn (CStrs t))
| cr_notin s t : List.length s = List.length t -> crit_retyped (KNotIn (CStrs s)) (KNotIn (CStrs t)).
Lemma shape_app a b : shape (a ++ b) = shape a ++ shape b.
Proof. apply map_app. Qed.
Lemma shape_commas : forall s t : list string, List.length s = List.length t ->
  shape (commas (map (fun x => [TS x]) s)) = shape (commas (map (fun x => [TS x]) t)).
Proof.
  induction s as [|x s IH]; intros [|y t] L; try discriminate; [reflexivity|]. injection L as L.
  specialize (IH t L). destruct s as [|x2 s], t as [|y2 t]; try discriminate; [reflexivity|].
  cbn [map commas] in *. cbn [app shape map blank]. f_equal. f_equal. exact IH.
Qed.
Lemma crit_shape time_str col numt lit f k k' : crit_retyped k k' ->
  shape (shown time_str col numt lit f k) = shape (shown time_str col numt lit f k').
Proof.
  assert (SET : forall s t : list string, List.length s = List.length t -> shape (TC "(" :: commas (map (fun x => [TS x]) s) ++ [TC ")"]) = shape (TC "(" :: commas (map (fun x => [TS x]) t) ++ [TC ")"])).
  { intros s t L. change (TC "(" :: ?a) with ([TC "("] ++ a). rewrite !shape_app. f_equal. f_equal. apply shape_commas. exact L. }
  destruct 1; cbn [shown shown_value shown_set]; rewrite ?shape_app; try reflexivity.
  - destruct fold; rewrite ?shape_app; reflexivity.
  - rewrite (SET s t) by assumption. reflexivity.
  - rewrite (SET s t) by assumption. reflexivity.
Qed.
Lemma crit_texts num_str time_str f k k' : crit_retyped k k' ->
  res_rel (fun _ _ => True) (criterion_text num_str time_str f k) (criterion_text num_str time_str f k').
Proof. destruct 1; cbn; try destruct fold; exact I || reflexivity. Qed.
Lemma no_lits k k' : crit_retyped k k' -> lits_in k = [] /\ lits_in k' = [].
Proof. destruct 1; split; reflexivity. Qed.

Lemma criterion_retyped num b e s t :
  res_rel crit_retyped (Filter_Model.criterion num b e (CStr s)) (Filter_Model.criterion num b e (CStr t)).
Proof. destruct e; cbn; constructor. Qed.
Lemma validate_retyped qt get value_sql cast d d' : retyped get value_sql d d' ->
  res_rel (fun x y => fst x = fst y) (validate qt get value_sql cast d) (validate qt get value_sql cast d').
Proof.
  destruct 1 as [k e s t NY NM NS NT|k e s t NY IE L].
  - unfold validate. cbn [check cd_field cd_expression bind cd_value].
    assert (CE : check_expression (CDef (Some k) (Some e) (Some (CStr s))) = check_expression (CDef (Some k) (Some e) (Some (CStr t)))) by reflexivity.
    rewrite CE. destruct (check_expression _) as [[]|]; cbn [bind]; [|reflexivity].
    destruct (get k) as [f|] eqn:G; cbn [bind]; [|reflexivity]. specialize (NY f eq_refl).
    rewrite !field_value_text by assumption.
    assert (CV : forall x, cast_value qt cast f (Some (CStr x)) = Ok (Some (CStr x))) by (intros x; unfold cast_value; destruct (needs_datetime_cast qt); reflexivity).
    rewrite !CV. cbn [bind]. unfold yesno. destruct (String.eqb_spec (cf_type f) "yesno"); [congruence|]. reflexivity.
  - unfold validate. cbn [check cd_field cd_expression bind cd_value].
    assert (CE : check_expression (CDef (Some k) (Some e) (Some (CStrs s))) = check_expression (CDef (Some k) (Some e) (Some (CStrs t)))) by reflexivity.
    rewrite CE. destruct (check_expression _) as [[]|]; cbn [bind]; [|reflexivity].
    destruct (get k) as [f|] eqn:G; cbn [bind]; [|reflexivity]. destruct (NY f eq_refl) as [NY1 _]. cbn [field_value].
    assert (CV : forall x, cast_value qt cast f (Some (CStrs x)) = Ok (Some (CStrs x))) by (intros x; unfold cast_value; destruct (needs_datetime_cast qt); reflexivity).
    rewrite !CV. cbn [bind]. unfold yesno. destruct (String.eqb_spec (cf_type f) "yesno"); [congruence|]. reflexivity.
Qed.
Lemma comparisons_retyped qt get value_sql cast matched num d d' : retyped get value_sql d d' ->
  res_rel (Forall2 crit_retyped) (comparisons qt get value_sql cast matched num d) (comparisons qt get value_sql cast matched num d').
Proof.
  intros R. pose proof (validate_retyped qt get value_sql cast d d' R) as V. unfold comparisons.
  destruct R as [k e s t NY NM NS NT|k e s t NY IE L].
  - destruct (String.eqb_spec e "UNKNOWN") as [->|NU]; [reflexivity|].
    destruct (get k) as [f|x] eqn:G.
    + pose proof (comparisons_text qt get value_sql cast matched num k e s f G (NY f eq_refl) NU NM NS) as C1.
      pose proof (comparisons_text qt get value_sql cast matched num k e t f G (NY f eq_refl) NU NM NT) as C2.
      unfold comparisons in C1, C2. rewrite C1, C2.
      apply (rel_bind crit_retyped); [destruct (parse_expression e); try apply criterion_retyped; reflexivity|].
      intros x y XY. constructor; [exact XY|constructor].
    + unfold validate. rewrite !check_text by exact NU. cbn [check cd_field cd_expression bind cd_value]. rewrite G. reflexivity.
  - assert (CE : forall u, check_expression (CDef (Some k) (Some e) (Some (CStrs u))) = Ok tt) by (intros u; destruct IE as [<-|[<-|[]]]; reflexivity).
    unfold validate. rewrite !CE. cbn [check cd_field cd_expression bind cd_value]. destruct (get k) as [f|] eqn:G; cbn [bind]; [|reflexivity].
    destruct (NY f eq_refl) as [NY1 NN]. cbn [field_value].
    assert (CV : forall x, cast_value qt cast f (Some (CStrs x)) = Ok (Some (CStrs x))) by (intros x; unfold cast_value; destruct (needs_datetime_cast qt); reflexivity).
    rewrite !CV. cbn [bind]. unfold yesno. destruct (String.eqb_spec (cf_type f) "yesno"); [congruence|]. cbn [bind].
    destruct (String.eqb_spec (cf_type f) "number"); [congruence|].
    destruct IE as [<-|[<-|[]]]; cbn; (constructor; [constructor; exact L|constructor]).
Qed.

(** On the warehouses with standard literals (Postgres, Druid, DuckDB, SQL Server, Synapse, Trino) no text can change
    the statement: two requests that differ only in the texts of their conditions, whatever these texts are and
    however the conditions are nested, either fail alike or give clauses that read the same but for the contents of
    the literals. *)
Theorem C76_same_shape :
  forall num_str time_str repr qt get_field value_sql matched num column col numt,
    In qt standard ->
    (forall q, phrase (rules_of qt) (num_str q) (numt q) /\ no_quote_first (num_str q) = true) ->
    (forall k, stands (rules_of qt) (column k) (col (column k))) ->
    forall fs gs, Forall2 (alike (A := string * crit) (B := string * crit) (retyped get_field value_sql)) fs gs ->
    let text := where_text num_str time_str repr qt get_field value_sql matched num column in
    res_rel (opt_rel (fun a b => exists x y, reading (rules_of qt) a = Some x /\ reading (rules_of qt) b = Some y /\ shape x = shape y)) (text fs) (text gs).
Proof.
  intros num_str time_str repr qt get value_sql matched num column col numt IQ N C fs gs F text.
  destruct (standard_rules qt IQ) as [RB RD]. set (r := rules_of qt) in *.
  set (lok := leaf_ok time_str repr qt get value_sql). set (ats := atoms time_str repr qt get value_sql matched num column).
  set (R := fun a b : string * crit => fst a = fst b /\ stands r (fst a) (col (fst a)) /\ crit_retyped (snd a) (snd b)).
  assert (O : forall l m, retyped get value_sql l m -> lok l = lok m).
  { intros l m LM. unfold lok, leaf_ok. pose proof (validate_retyped qt get value_sql (datatype_cast time_str repr) l m LM) as V.
    destruct (validate _ _ _ _ l), (validate _ _ _ _ m); cbn in *; try contradiction; congruence. }
  assert (A : forall l m, retyped get value_sql l m -> res_rel (Forall2 R) (ats l) (ats m)).
  { intros l m LM. unfold ats, atoms. apply (rel_bind (Forall2 crit_retyped)); [apply comparisons_retyped; exact LM|].
    intros x y XY. assert (CF : exists k, cd_field l = Some k /\ cd_field m = Some k) by (destruct LM; eexists; split; reflexivity).
    destruct CF as [k [-> ->]]. cbn [res_rel]. clear -XY C. induction XY; cbn [map]; constructor; auto.
    split; [reflexivity|]. split; [apply C|exact H]. }
  pose proof (where_alike (retyped get value_sql) R lok lok ats ats O A fs gs F) as W.
  assert (SRC : forall ts, where_sql lok ats None (ListWhere fs) = Ok (Some ts) -> apart false ts = true).
  { intros ts E. destruct (where_source (retyped get value_sql) R lok lok ats ats O A fs gs ts F E) as [c [NL G]]. exact (sql_apart c NL false ts G). }
  unfold text, where_text. fold lok ats. destruct (where_sql lok ats None (ListWhere fs)) as [[ts|]|e], (where_sql lok ats None (ListWhere gs)) as [[us|]|e']; cbn [res_rel opt_rel] in W; try contradiction; [|exact I|exact W].
  cbn [bind]. specialize (SRC ts eq_refl).
  assert (P : res_rel (fun _ _ => True) (print num_str time_str ts) (print num_str time_str us)).
  { clear SRC. induction W as [|t u ts us TU W IH]; [exact I|]. cbn [print].
    apply (rel_bind (fun _ _ => True)).
    - destruct TU as [[f k] [f' k'] [E [_ K]]| | | |]; cbn [fst snd] in *; [|exact I..]. subst f'. cbn [tok_text]. apply crit_texts. exact K.
    - intros x y _. apply (rel_bind (fun _ _ => True)); [exact IH|]. intros; exact I. }
  assert (SH : shape (shown_clause time_str col numt (fun _ => []) ts) = shape (shown_clause time_str col numt (fun _ => []) us)).
  { clear SRC P. induction W as [|t u ts us TU W IH]; [reflexivity|]. unfold shown_clause. cbn [map List.concat].
    fold (shown_clause time_str col numt (fun _ => []) ts). fold (shown_clause time_str col numt (fun _ => []) us). rewrite !shape_app, IH. f_equal.
    destruct TU as [[f k] [f' k'] [E [_ K]]| | | |]; cbn [fst snd] in *; [|reflexivity..]. subst f'. cbn [word]. apply crit_shape. exact K. }
  assert (AU : apart false us = true).
  { clear -W SRC. revert SRC. generalize false. induction W as [|t u ts us TU W IH]; intros b SRC; [reflexivity|].
    destruct TU; cbn [apart] in *; auto. apply andb_true_iff in SRC. destruct SRC as [-> S]. cbn [andb]. auto. }
  assert (FT : forall a, In (TAtom a) ts -> fine r time_str col (fun _ => []) a).
  { clear -W RB RD. induction W as [|t u ts us TU W IH]; intros a I; [destruct I|]. destruct I as [->|I]; [|apply IH; exact I].
    inversion TU as [x y [E [S K]]| | | |]; subst. split; [exact S|]. destruct (no_lits _ _ K) as [L _]. rewrite L. split; [|intros x []].
    apply Forall_forall. intros v _. apply standard_readable; assumption. }
  assert (FU : forall a, In (TAtom a) us -> fine r time_str col (fun _ => []) a).
  { clear -W RB RD. induction W as [|t u ts us TU W IH]; intros a I; [destruct I|]. destruct I as [->|I]; [|apply IH; exact I].
    inversion TU as [x y [E [S K]]| | | |]; subst. split; [rewrite <- E; exact S|]. destruct (no_lits _ _ K) as [_ L]. rewrite L. split; [|intros ? []].
    apply Forall_forall. intros v _. apply standard_readable; assumption. }
  destruct (print num_str time_str ts) as [a|] eqn:PA, (print num_str time_str us) as [b|] eqn:PB; cbn [res_rel] in P; try contradiction; [|exact P].
  cbn [bind res_rel opt_rel]. exists (shown_clause time_str col numt (fun _ => []) ts), (shown_clause time_str col numt (fun _ => []) us).
  destruct (print_stands r num_str time_str col numt (fun _ => []) N ts a FT PA) as [K1 _].
  destruct (print_stands r num_str time_str col numt (fun _ => []) N us b FU PB) as [K2 _].
  split; [apply stands_reading, K1; exact SRC|]. split; [apply stands_reading, K2; exact AU|exact SH].
Qed.
Print Assumptions C76_same_shape.
