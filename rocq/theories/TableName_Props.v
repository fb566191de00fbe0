(** C68: a view reads the table its definition names. *)
From Coq Require Import List String Ascii Bool Arith Lia.
From Verif Require Import PyBase PyStr PyReplace Repo_Model TableName_Model.
Import ListNotations.
Local Open Scope string_scope.
Local Open Scope list_scope.

(** ** Specification *)
(** A text without two hyphens in a row, also when a hyphen follows it *)
Definition quiet (t : string) : Prop := contains "--" (t ++ "-") = false.
(** A conditional table name: some text, then for every environment -- if e -- t *)
Record branch := Branch { b_env : string; b_text : string }.
Definition show_branch (b : branch) : string := ("-- if" ++ b_env b ++ "--" ++ b_text b)%string.
Definition show (pre : string) (l : list branch) : string := (pre ++ String.concat "" (map show_branch l))%string.
Definition named (b : branch) : string := strip (b_env b).
Definition table_of (b : branch) : string := strip (drop_newlines (b_text b)).
Record good_branch (b : branch) : Prop := {
  g_hyphen : has_char hyphen (b_env b) = false;
  g_newline : has_char newline (b_env b) = false;
  g_literal : literal_text (b_env b) = true;
  g_quiet : quiet (b_text b);
  (* also when its lines are put together; and its text does not go on like a condition *)
  g_lines : quiet (drop_newlines (b_text b));
  g_start : starts_with "-" (drop_newlines (b_text b)) = false /\ starts_with " if" (drop_newlines (b_text b)) = false }.

(** ** Texts *)
Lemma contains_pre p a b : contains p (a ++ b) = false -> contains p a = false.
Proof. intros H. destruct (contains p a) eqn:E; [|reflexivity]. apply contains_spec in E. destruct E as (x & y & ->). rewrite <- H. symmetry. apply contains_spec. exists x, (y ++ b)%string. rewrite !append_assoc. reflexivity. Qed.
Lemma contains_post p a b : contains p (a ++ b) = false -> contains p b = false.
Proof. intros H. destruct (contains p b) eqn:E; [|reflexivity]. apply contains_spec in E. destruct E as (x & y & ->). rewrite <- H. symmetry. apply contains_spec. exists (a ++ x)%string, y. rewrite !append_assoc. reflexivity. Qed.
Lemma quiet_tail c t : quiet (String c t) -> quiet t.
Proof. unfold quiet. cbn [append contains]. intros H. apply orb_false_iff in H. apply H. Qed.
(** no match that starts with two hyphens begins inside a quiet text *)
Lemma quiet_head c t q r : quiet (String c t) -> strip_prefix ("--" ++ q) (String c t ++ r) = None.
Proof.
  unfold quiet. cbn [append contains]. unfold starts_with. cbn [strip_prefix]. destruct (Ascii.eqb "-" c) eqn:C; [|reflexivity]. intros H. apply orb_false_iff in H. destruct H as [H _].
  destruct t as [|d t]; cbn [append] in *; [cbn [strip_prefix Ascii.eqb Bool.eqb] in H; discriminate H|]. cbn [strip_prefix] in *. destruct (Ascii.eqb "-" d); [discriminate H|reflexivity].
Qed.
Lemma closed_none q t r c : quiet (String c t) -> closed ("--" ++ q) (String c t ++ r) = None.
Proof. intros H. unfold closed. now rewrite quiet_head. Qed.
Lemma find_after_quiet q t r : quiet t -> find_after ("--" ++ q) (t ++ r) = find_after ("--" ++ q) r.
Proof. induction t as [|c t IH]; intros H; [reflexivity|]. rewrite <- (IH (quiet_tail _ _ H)). pose proof (quiet_head c t q r H) as Q. cbn [append find_after] in *. now rewrite Q. Qed.
Lemma search_quiet q t r : quiet t -> search_closed ("--" ++ q) (t ++ r) = search_closed ("--" ++ q) r.
Proof. induction t as [|c t IH]; intros H; [reflexivity|]. rewrite <- (IH (quiet_tail _ _ H)). pose proof (closed_none q t r c H) as Q. cbn [append search_closed] in *. now rewrite Q. Qed.
Lemma find_conditions_quiet t r n : quiet t -> String.length (t ++ r) < n -> exists m, String.length r < m /\ find_conditions n (t ++ r) = find_conditions m r.
Proof.
  revert n. induction t as [|c t IH]; intros n H L; [exists n; auto|]. destruct n as [|n]; [lia|]. pose proof (closed_none " if" t r c H) as Q. cbn [append] in *. cbn [find_conditions]. rewrite Q. apply IH; [eapply quiet_tail; exact H|]. cbn [String.length] in L. lia.
Qed.
Lemma run_app e r : has_char hyphen e = false -> run (e ++ String hyphen r) = (e, String hyphen r).
Proof.
  induction e as [|c e IH]; intros H; [reflexivity|]. cbn [has_char] in H. apply orb_false_iff in H. destruct H as [H1 H2]. cbn [append run]. assert (X : Ascii.eqb hyphen c = false) by (destruct (Ascii.eqb_spec hyphen c) as [<-|]; [rewrite Ascii.eqb_refl in H1; discriminate H1|reflexivity]). rewrite X, (IH H2). reflexivity.
Qed.
Lemma run_all e : has_char hyphen e = false -> run e = (e, "").
Proof.
  induction e as [|c e IH]; intros H; [reflexivity|]. cbn [has_char] in H. apply orb_false_iff in H. destruct H as [H1 H2]. cbn [run]. assert (X : Ascii.eqb hyphen c = false) by (destruct (Ascii.eqb_spec hyphen c) as [<-|]; [rewrite Ascii.eqb_refl in H1; discriminate H1|reflexivity]). rewrite X, (IH H2). reflexivity.
Qed.
Lemma closed_here p e r : has_char hyphen e = false -> closed p (p ++ e ++ "--" ++ r) = Some (e, r).
Proof. intros H. unfold closed. rewrite strip_prefix_app. change ("--" ++ r)%string with (String hyphen (String hyphen r)). rewrite run_app by exact H. reflexivity. Qed.
(** a quiet text with a hyphen has no closing after it *)
Lemma run_quiet t r : quiet t -> has_char hyphen t = true -> strip_prefix "--" (snd (run (t ++ r))) = None.
Proof.
  induction t as [|c t IH]; intros Q H; [discriminate H|]. cbn [append run]. destruct (Ascii.eqb hyphen c) eqn:C.
  - cbn [snd]. exact (quiet_head c t "" r Q).
  - cbn [snd]. apply IH; [eapply quiet_tail; exact Q|]. cbn [has_char] in H. apply orb_true_iff in H. destruct H as [H|H]; [|exact H]. apply Ascii.eqb_eq in H. subst c. rewrite Ascii.eqb_refl in C. discriminate C.
Qed.
Lemma drop_newlines_app a b : drop_newlines (a ++ b) = (drop_newlines a ++ drop_newlines b)%string.
Proof.
  unfold drop_newlines. induction a as [|c a IH]; [reflexivity|]. cbn [append]. rewrite !(replace_unfold (String newline "") "" (String c _)) by discriminate. cbn [strip_prefix]. destruct (Ascii.eqb newline c); cbn [append]; rewrite IH; reflexivity.
Qed.
Lemma drop_newlines_none a : has_char newline a = false -> drop_newlines a = a.
Proof.
  unfold drop_newlines. induction a as [|c a IH]; intros H; [reflexivity|]. cbn [has_char] in H. apply orb_false_iff in H. destruct H as [H1 H2]. rewrite replace_unfold by discriminate. cbn [strip_prefix].
  destruct (Ascii.eqb_spec newline c) as [<-|]; [rewrite Ascii.eqb_refl in H1; discriminate H1|]. now rewrite IH.
Qed.
Definition flat (b : branch) : branch := Branch (b_env b) (drop_newlines (b_text b)).
Lemma drop_show pre l : Forall good_branch l -> drop_newlines (show pre l) = show (drop_newlines pre) (map flat l).
Proof.
  intros G. unfold show. rewrite drop_newlines_app. f_equal. induction G as [|b l B G IH]; [reflexivity|]. assert (C : forall x (r : list string), String.concat "" (x :: r) = (x ++ String.concat "" r)%string) by (intros x [|y r]; cbn [String.concat]; [now rewrite append_nil_r|reflexivity]).
  cbn [map]. rewrite !C, drop_newlines_app, IH. f_equal. unfold show_branch. rewrite !drop_newlines_app, (drop_newlines_none (b_env b)) by apply B. reflexivity.
Qed.
Lemma show_cons pre b l : show pre (b :: l) = (pre ++ "-- if" ++ b_env b ++ "--" ++ b_text b ++ show "" l)%string.
Proof.
  unfold show. assert (C : forall x (r : list string), String.concat "" (x :: r) = (x ++ String.concat "" r)%string) by (intros x [|y r]; cbn [String.concat]; [now rewrite append_nil_r|reflexivity]).
  cbn [map]. rewrite C. unfold show_branch. rewrite !append_assoc. reflexivity.
Qed.
Lemma show_pre pre l : show pre l = (pre ++ show "" l)%string.
Proof. reflexivity. Qed.

(** ** The environments of the text *)
Lemma find_conditions_show l : forall n, Forall good_branch l -> String.length (show "" l) < n -> find_conditions n (show "" l) = map b_env l.
Proof.
  induction l as [|b l IH]; intros n G L.
  - destruct n; [lia|]. reflexivity.
  - inversion G as [|? ? B G']; subst. rewrite show_cons in *. change ("" ++ ?x)%string with x in *. destruct n as [|n]; [lia|].
    assert (E : find_conditions (S n) ("-- if" ++ b_env b ++ "--" ++ b_text b ++ show "" l) = b_env b :: find_conditions n (b_text b ++ show "" l)).
    { cbn [find_conditions]. rewrite closed_here by apply B. reflexivity. }
    rewrite E. rewrite !append_length in L. cbn [String.length] in L. destruct (find_conditions_quiet (b_text b) (show "" l) n (g_quiet _ B)) as (m & M & ->); [rewrite append_length; lia|]. cbn [map]. f_equal. apply IH; assumption.
Qed.
Lemma conditions_show pre l : quiet pre -> Forall good_branch l -> conditions (show pre l) = map b_env l.
Proof. intros P G. unfold conditions. rewrite show_pre. destruct (find_conditions_quiet pre (show "" l) (S (String.length (pre ++ show "" l))) P) as (m & M & ->); [lia|]. apply find_conditions_show; assumption. Qed.
Lemma find_env l e : List.find (fun c => String.eqb (strip c) e) (map b_env l) = option_map b_env (List.find (fun b => String.eqb (named b) e) l).
Proof. induction l as [|b l IH]; [reflexivity|]. cbn [map List.find]. unfold named at 1. destruct (String.eqb (strip (b_env b)) e); [reflexivity|exact IH]. Qed.

(** the phrase of a branch is not that of another *)
Lemma phrase_other e e' r : has_char hyphen e = false -> has_char hyphen e' = false -> e <> e' -> strip_prefix ("-- if" ++ e ++ "--") ("-- if" ++ e' ++ "--" ++ r) = None.
Proof.
  intros H H' N. destruct (strip_prefix ("-- if" ++ e ++ "--") ("-- if" ++ e' ++ "--" ++ r)) as [x|] eqn:E; [|reflexivity]. exfalso. apply strip_prefix_some in E. rewrite !append_assoc in E. apply append_inj_l in E. rewrite ?append_assoc in E. apply N.
  change ("--" ++ r)%string with (String hyphen (String hyphen r)) in E. change ("--" ++ x)%string with (String hyphen (String hyphen x)) in E. clear N. revert e' H' E. induction e as [|c e IH]; intros [|c' e'] H' E; cbn [append] in E; [reflexivity| | |].
  - injection E as X E. rewrite X in H'. cbn in H'. discriminate H'.
  - injection E as X E. rewrite <- X in H. cbn in H. discriminate H.
  - injection E as -> E. cbn [has_char] in H, H'. apply orb_false_iff in H, H'. f_equal. apply IH; tauto.
Qed.

(** ** Scanning *)
Definition continues (r : string) : Prop := r = "" \/ exists x, r = String hyphen (String hyphen x).
Lemma show_continues l : continues (show "" l).
Proof. destruct l as [|b l]; [now left|right]. rewrite show_cons. eexists. reflexivity. Qed.
Lemma prefix_over p b r : has_char hyphen p = false -> strip_prefix p b = None -> continues r -> strip_prefix p (b ++ r) = None.
Proof.
  intros H. revert b. induction p as [|c p IH]; intros b N C; [destruct b; discriminate N|]. cbn [has_char] in H. apply orb_false_iff in H. destruct H as [H1 H2]. destruct b as [|d b].
  - cbn [append]. destruct C as [->|[x ->]]; [reflexivity|]. cbn [strip_prefix]. destruct (Ascii.eqb_spec c hyphen) as [->|]; [discriminate H1|reflexivity].
  - cbn [append strip_prefix] in *. destruct (Ascii.eqb c d); [|reflexivity]. now apply IH.
Qed.
Section Scan.
  Variables (A : Type) (q : string) (F : string -> A).
  Hypothesis step : forall c s, strip_prefix ("-- if" ++ q) (String c s) = None -> F (String c s) = F s.
  Lemma scan_quiet t r : quiet t -> F (t ++ r) = F r.
  Proof. induction t as [|c t IH]; intros H; [reflexivity|]. rewrite <- (IH (quiet_tail _ _ H)). cbn [append]. apply step. exact (quiet_head c t (" if" ++ q) r H). Qed.
  Lemma scan_rest b r : good_branch b -> continues r -> F ("- if" ++ b_env b ++ "--" ++ drop_newlines (b_text b) ++ r) = F r.
  Proof.
    intros B C. set (t := drop_newlines (b_text b)). destruct (g_start b B) as [S1 S2]. fold t in S1, S2. pose proof (g_lines b B) as Q. fold t in Q.
    assert (QE : quiet ("- if" ++ b_env b)).
    { unfold quiet. rewrite append_assoc. cbn [append contains]. unfold starts_with. cbn [strip_prefix Ascii.eqb Bool.eqb orb]. pose proof (g_hyphen b B) as H. induction (b_env b) as [|c e IH]; [reflexivity|]. cbn [has_char] in H. apply orb_false_iff in H. destruct H as [H1 H2]. cbn [append contains]. rewrite (IH H2), orb_false_r. unfold starts_with. cbn [strip_prefix]. destruct (Ascii.eqb_spec "-" c) as [<-|]; [discriminate H1|reflexivity]. }
    rewrite <- (append_assoc "- if"). rewrite (scan_quiet _ _ QE). change (F (String hyphen (String hyphen (t ++ r))) = F r).
    assert (N1 : strip_prefix ("-- if" ++ q) (String hyphen (String hyphen (t ++ r))) = None).
    { unfold starts_with in S2. assert (X : strip_prefix " if" t = None) by (destruct (strip_prefix " if" t); [discriminate S2|reflexivity]). apply (prefix_over _ _ r) in X; [|reflexivity|exact C]. destruct (strip_prefix ("-- if" ++ q) (String hyphen (String hyphen (t ++ r)))) as [x|] eqn:E; [|reflexivity].
      apply strip_prefix_some in E. cbn [append] in E. injection E as E. rewrite E in X. cbn [strip_prefix Ascii.eqb Bool.eqb] in X. discriminate X. }
    assert (N2 : strip_prefix ("-- if" ++ q) (String hyphen (t ++ r)) = None).
    { destruct (strip_prefix ("-- if" ++ q) (String hyphen (t ++ r))) as [x|] eqn:E; [|reflexivity]. exfalso. apply strip_prefix_some in E. cbn [append] in E. injection E as E. destruct t as [|d t].
      - cbn [append] in E. subst r. destruct C as [C|[y C]]; discriminate C.
      - cbn [append] in E. injection E as -> E. discriminate S1. }
    rewrite (step hyphen _ N1), (step hyphen _ N2). apply scan_quiet. exact Q.
  Qed.
  Variable e : string.
  Hypothesis eq : q = (e ++ "--")%string.
  Hypothesis he : has_char hyphen e = false.
  Lemma scan_branch b r : good_branch b -> continues r -> b_env b <> e -> F ("-- if" ++ b_env b ++ "--" ++ drop_newlines (b_text b) ++ r) = F r.
  Proof.
    intros B C N. rewrite <- (scan_rest b r B C). change ("-- if" ++ ?x)%string with (String hyphen ("- if" ++ x)). apply step. rewrite eq. apply phrase_other; [exact he|apply B|congruence].
  Qed.
  Lemma scan_others l r : Forall good_branch l -> (forall b, In b l -> b_env b <> e) -> continues r -> F (show "" (map flat l) ++ r) = F r.
  Proof.
    intros G. induction G as [|b l B G IH]; intros N C; [reflexivity|]. cbn [map]. rewrite show_cons. change ("" ++ ?x)%string with x. rewrite !append_assoc. cbn [b_env b_text flat]. rewrite scan_branch; [|exact B| |apply N; now left].
    - apply IH; [|exact C]. intros x X. apply N. now right.
    - destruct (show_continues (map flat l)) as [->|[x ->]]; [exact C|]. right. eexists. reflexivity.
  Qed.
End Scan.
Lemma find_step p : forall c s, strip_prefix p (String c s) = None -> find_after p (String c s) = find_after p s.
Proof. intros c s H. cbn [find_after]. now rewrite H. Qed.
Lemma search_step p : forall c s, strip_prefix p (String c s) = None -> search_closed p (String c s) = search_closed p s.
Proof. intros c s H. cbn [search_closed]. unfold closed. now rewrite H. Qed.
Lemma show_app pre l1 l2 : show pre (l1 ++ l2) = (show pre l1 ++ show "" l2)%string.
Proof.
  revert pre. induction l1 as [|b l1 IH]; intros pre; cbn [List.app]; [unfold show; cbn; now rewrite append_nil_r|]. rewrite !show_cons, (IH ""), !append_assoc. reflexivity.
Qed.
Lemma show_has_if pre l : l <> [] -> contains "-- if" (show pre l) = true.
Proof. destruct l as [|b l]; [contradiction|]. intros _. rewrite show_cons. apply contains_spec. eauto. Qed.

Section Conditional.
  Variable special : string -> string -> res string.
  Notation resolve_table := (resolve_table special).
  Definition at_env (p : project) (e : string) : Prop := p_env p = Some e.

  Lemma resolve_at p pre l1 b l2 : quiet pre -> quiet (drop_newlines pre) -> Forall good_branch (l1 ++ b :: l2) -> at_env p (named b) -> (forall x, In x l1 -> named x <> named b) ->
    let phrase := ("-- if" ++ b_env b ++ "--")%string in let t := show "" (map flat (b :: l2)) in
    resolve_table p (show pre (l1 ++ b :: l2)) =
    match search_closed phrase t with
    | Some value => Ok (strip (replace "--" "" (phrase ++ value ++ "--")))
    | None => match find_after phrase t with Some r => Ok (strip r) | None => Ok (show pre (l1 ++ b :: l2)) end
    end.
  Proof.
    intros P P' G E N. cbv zeta. unfold TableName_Model.resolve_table. rewrite show_has_if by (destruct l1; discriminate). unfold resolve_conditional. rewrite E, conditions_show by assumption. rewrite find_env.
    assert (FB : List.find (fun x => String.eqb (named x) (named b)) (l1 ++ b :: l2) = Some b).
    { clear - N. induction l1 as [|x l1 IH]; cbn [List.app List.find]; [now rewrite String.eqb_refl|]. assert (X : named x <> named b) by (apply N; now left). apply String.eqb_neq in X. rewrite X. apply IH. intros y Y. apply N. now right. }
    rewrite FB. cbn [option_map]. pose proof (proj1 (Forall_app _ _ _) G) as [G1 G2]. inversion G2 as [|? ? B G2']; subst. rewrite (g_literal b B). cbn [negb]. rewrite drop_show by exact G. rewrite map_app, show_app, show_pre.
    assert (NE : forall x, In x l1 -> b_env x <> b_env b) by (intros x X Y; apply (N x X); unfold named; now rewrite Y).
    rewrite !append_assoc.
    rewrite (scan_quiet _ _ _ (search_step ("-- if" ++ b_env b ++ "--"))) by exact P'. rewrite (scan_quiet _ _ _ (find_step ("-- if" ++ b_env b ++ "--"))) by exact P'.
    rewrite (scan_others _ _ _ (search_step ("-- if" ++ b_env b ++ "--")) (b_env b) eq_refl (g_hyphen b B)); [|exact G1|exact NE|apply show_continues].
    rewrite (scan_others _ _ _ (find_step ("-- if" ++ b_env b ++ "--")) (b_env b) eq_refl (g_hyphen b B)); [|exact G1|exact NE|apply show_continues]. reflexivity.
  Qed.
  Lemma own_branch b r : find_after ("-- if" ++ b_env b ++ "--") ("-- if" ++ b_env b ++ "--" ++ r) = Some r.
  Proof. assert (X : ("-- if" ++ b_env b ++ "--" ++ r = ("-- if" ++ b_env b ++ "--") ++ r)%string) by (rewrite !append_assoc; reflexivity). rewrite X. cbn [append]. cbn [find_after]. change (String "-" (String "-" (String " " (String "i" (String "f" (b_env b ++ "--"))))))%string with ("-- if" ++ b_env b ++ "--")%string. change (String "-" (String "-" (String " " (String "i" (String "f" ((b_env b ++ "--") ++ r))))))%string with (("-- if" ++ b_env b ++ "--") ++ r)%string. now rewrite strip_prefix_app. Qed.
  (** not closed at its own branch: looked for in the others *)
  Lemma search_own b l : good_branch b -> Forall good_branch l -> (forall x, In x l -> b_env x <> b_env b) -> (has_char hyphen (drop_newlines (b_text b)) = true \/ l = []) ->
    search_closed ("-- if" ++ b_env b ++ "--") (show "" (map flat (b :: l))) = None.
  Proof.
    intros B G N H. set (p := ("-- if" ++ b_env b ++ "--")%string). cbn [map]. rewrite show_cons. change ("" ++ ?x)%string with x. cbn [flat b_env b_text]. set (t := drop_newlines (b_text b)) in *.
    assert (CL : closed p ("-- if" ++ b_env b ++ "--" ++ t ++ show "" (map flat l)) = None).
    { unfold closed. replace ("-- if" ++ b_env b ++ "--" ++ t ++ show "" (map flat l))%string with (p ++ (t ++ show "" (map flat l)))%string by (unfold p; rewrite !append_assoc; reflexivity). rewrite strip_prefix_app. destruct (has_char hyphen t) eqn:HT.
      - rewrite run_quiet; [reflexivity|apply (g_lines b B)|exact HT].
      - destruct H as [H| ->]; [discriminate H|]. cbn [map]. change (show "" []) with "". rewrite append_nil_r, run_all by exact HT. reflexivity. }
    assert (ST : search_closed p ("-- if" ++ b_env b ++ "--" ++ t ++ show "" (map flat l)) = search_closed p ("- if" ++ b_env b ++ "--" ++ t ++ show "" (map flat l))) by (cbn [append] in *; cbn [search_closed]; rewrite CL; reflexivity).
    rewrite ST. unfold p. rewrite (scan_rest _ _ _ (search_step ("-- if" ++ b_env b ++ "--")) b _ B (show_continues _)).
    rewrite <- (append_nil_r (show "" (map flat l))). rewrite (scan_others _ _ _ (search_step ("-- if" ++ b_env b ++ "--")) (b_env b) eq_refl (g_hyphen b B)); [reflexivity|exact G|exact N|now left].
  Qed.

  (** C68: the last environment of the text reads its table *)
  Theorem C68_environment_last p pre l b : quiet pre -> quiet (drop_newlines pre) -> Forall good_branch (l ++ [b]) -> at_env p (named b) -> (forall x, In x l -> named x <> named b) ->
    resolve_table p (show pre (l ++ [b])) = Ok (table_of b).
  Proof.
    intros P P' G E N. rewrite (resolve_at p pre l b [] P P' G E N). apply Forall_app in G. destruct G as [_ G]. inversion G as [|? ? B _]; subst. rewrite search_own; [|exact B|constructor|intros x []|now right].
    cbn [map]. rewrite show_cons. change ("" ++ ?x)%string with x. cbn [flat b_env b_text]. change (show "" []) with "". rewrite append_nil_r, own_branch. reflexivity.
  Qed.
  (** any other environment reads the words of its condition, then its table *)
  Theorem C68_environment_refuted p pre l1 b c l2 : quiet pre -> quiet (drop_newlines pre) -> Forall good_branch (l1 ++ b :: c :: l2) -> at_env p (named b) -> (forall x, In x l1 -> named x <> named b) ->
    has_char hyphen (drop_newlines (b_text b)) = false -> resolve_table p (show pre (l1 ++ b :: c :: l2)) = Ok (strip (" if" ++ b_env b ++ drop_newlines (b_text b))).
  Proof.
    intros P P' G E N H. rewrite (resolve_at p pre l1 b (c :: l2) P P' G E N). apply Forall_app in G. destruct G as [_ G]. inversion G as [|? ? B G']; subst. inversion G' as [|? ? C _]; subst.
    cbn [map]. rewrite show_cons. change ("" ++ ?x)%string with x. cbn [flat b_env b_text]. rewrite (show_cons "" (flat c)). change ("" ++ ?x)%string with x. cbn [flat b_env b_text]. set (t := drop_newlines (b_text b)) in *. set (p0 := ("-- if" ++ b_env b ++ "--")%string). set (r := (b_env c ++ "--" ++ _)%string).
    assert (CL : closed p0 ("-- if" ++ b_env b ++ "--" ++ t ++ "-- if" ++ r) = Some (t, (" if" ++ r)%string)).
    { replace ("-- if" ++ b_env b ++ "--" ++ t ++ "-- if" ++ r)%string with (p0 ++ t ++ "--" ++ (" if" ++ r))%string by (unfold p0; rewrite !append_assoc; reflexivity). apply closed_here. exact H. }
    assert (ST : search_closed p0 ("-- if" ++ b_env b ++ "--" ++ t ++ "-- if" ++ r) = Some t) by (cbn [append] in *; cbn [search_closed]; rewrite CL; reflexivity).
    rewrite ST. do 2 f_equal. unfold p0. rewrite !append_assoc. change ("-- if" ++ ?x)%string with ("--" ++ (" if" ++ x))%string. rewrite replace_head by discriminate. change ("" ++ ?x)%string with x.
    rewrite (replace_skip_prefix hyphen "-" "" " if" _ eq_refl), (replace_skip_prefix hyphen "-" "" (b_env b) _ (g_hyphen b B)). change (String hyphen "-") with "--". rewrite replace_head by discriminate. change ("" ++ ?x)%string with x.
    rewrite (replace_skip_prefix hyphen "-" "" t _ H). change (String hyphen "-") with "--". do 2 f_equal. change (replace "--" "" "--") with "". now rewrite append_nil_r.
  Qed.
  (** ... or, if its table has a hyphen in its name, all the text that follows *)
  Theorem C68_hyphen_refuted p pre l1 b c l2 : quiet pre -> quiet (drop_newlines pre) -> Forall good_branch (l1 ++ b :: c :: l2) -> at_env p (named b) -> (forall x, In x (l1 ++ c :: l2) -> named x <> named b) ->
    has_char hyphen (drop_newlines (b_text b)) = true -> resolve_table p (show pre (l1 ++ b :: c :: l2)) = Ok (strip (show (drop_newlines (b_text b)) (map flat (c :: l2)))).
  Proof.
    intros P P' G E N H. rewrite (resolve_at p pre l1 b (c :: l2) P P' G E) by (intros x X; apply N; apply in_app_iff; now left). apply Forall_app in G. destruct G as [_ G]. inversion G as [|? ? B G']; subst.
    rewrite search_own; [|exact B|exact G'| |now left].
    - cbn [map]. rewrite show_cons. change ("" ++ ?x)%string with x. cbn [flat b_env b_text]. rewrite own_branch. rewrite (show_pre (drop_newlines (b_text b))). reflexivity.
    - intros x X Y. apply (N x); [apply in_app_iff; now right|]. unfold named. now rewrite Y.
  Qed.
  (** C68: an environment the text does not name is refused *)
  Theorem C68_environment_unknown p pre l : quiet pre -> Forall good_branch l -> l <> [] -> (forall b, In b l -> p_env p <> Some (named b)) -> resolve_table p (show pre l) = Err QueryError.
  Proof.
    intros P G L N. unfold TableName_Model.resolve_table. rewrite show_has_if by exact L. unfold resolve_conditional. rewrite conditions_show by assumption. destruct (p_env p) as [e|].
    - rewrite find_env. destruct (List.find (fun b => String.eqb (named b) e) l) as [b|] eqn:F; [|reflexivity]. exfalso. apply find_some in F. destruct F as [I F]. apply String.eqb_eq in F. apply (N b I). now rewrite F.
    - assert (X : List.find (fun _ : string => false) (map b_env l) = None) by (clear; induction l; auto). rewrite X. reflexivity.
  Qed.

  (** ** dbt *)
  (** C68: a reference to a dbt model, with whatever is around it *)
  Lemma find_index_skip c q a r : has_char c a = false -> find_index (String c q) (a ++ String c (q ++ r)) = Some (String.length a).
  Proof.
    induction a as [|x a IH]; intros H.
    - cbn [append String.length]. change (String c (q ++ r))%string with (String c q ++ r)%string. destruct (String c q ++ r)%string eqn:E; [discriminate E|]. cbn [find_index]. rewrite <- E, strip_prefix_app. reflexivity.
    - cbn [has_char] in H. apply orb_false_iff in H. destruct H as [H1 H2]. cbn [append find_index strip_prefix]. destruct (Ascii.eqb_spec c x) as [->|]; [rewrite Ascii.eqb_refl in H1; discriminate H1|]. rewrite (IH H2). reflexivity.
  Qed.
  Lemma find_index_ref a r : has_char "(" a = false -> find_index "ref(" (a ++ "ref(" ++ r) = Some (String.length a).
  Proof.
    induction a as [|x a IH]; intros H; [reflexivity|]. cbn [has_char] in H. apply orb_false_iff in H. destruct H as [H1 H2]. change (String x a ++ "ref(" ++ r)%string with (String x (a ++ "ref(" ++ r)). cbn [find_index String.length].
    destruct (strip_prefix "ref(" (String x (a ++ "ref(" ++ r))) as [y|] eqn:E; [|rewrite (IH H2); reflexivity]. exfalso. apply strip_prefix_some in E. destruct a as [|a1 [|a2 [|a3 a]]]; cbn [append] in E; try discriminate E. injection E as _ _ _ E. subst a3. cbn [has_char] in H2. rewrite !orb_true_r in H2. cbn in H2. rewrite ?orb_true_r in H2. discriminate H2.
  Qed.
  Lemma substring_skip a s n : substring (String.length a) n (a ++ s) = substring 0 n s.
  Proof. induction a as [|c a IH]; [reflexivity|]. exact IH. Qed.
  Lemma substring_whole a s : substring 0 (String.length a) (a ++ s) = a.
  Proof. induction a as [|c a IH]; cbn [append String.length substring]; [destruct s; reflexivity|now rewrite IH]. Qed.
  Lemma ref_arguments_of a x r : has_char "(" a = false -> has_char ")" a = false -> has_char ")" x = false -> ref_arguments (a ++ "ref(" ++ x ++ ")" ++ r) = x.
  Proof.
    intros A1 A2 X. unfold ref_arguments. rewrite find_index_ref by exact A1. replace (a ++ "ref(" ++ x ++ ")" ++ r)%string with ((a ++ "ref(" ++ x) ++ ")" ++ r)%string by (rewrite !append_assoc; reflexivity).
    change (")" ++ r)%string with (String ")" ("" ++ r)). rewrite find_index_skip; [|rewrite !has_char_app, A2, X; reflexivity]. unfold slice. rewrite !append_length. cbn [String.length].
    replace (String.length a + (4 + String.length x) - (String.length a + 4)) with (String.length x) by lia. replace (String.length a + 4) with (String.length (a ++ "ref(")) by (rewrite append_length; reflexivity).
    replace ((a ++ "ref(" ++ x) ++ String ")" ("" ++ r))%string with ((a ++ "ref(") ++ x ++ String ")" r)%string by (rewrite !append_assoc; reflexivity). rewrite substring_skip. apply substring_whole.
  Qed.
  Lemma drop_quotes n : has_char "'" n = false -> replace "'" "" ("'" ++ n ++ "'") = n.
  Proof. intros H. rewrite replace_head by discriminate. change ("" ++ ?x)%string with x. rewrite (replace_skip_prefix "'" "" "" n "'" H). change (replace (String "'" "") "" "'") with "". apply append_nil_r. Qed.
  Theorem C68_ref p a n r : has_char "(" a = false -> has_char ")" a = false -> has_char ")" n = false -> has_char "'" n = false -> contains "-- if" (a ++ "ref('" ++ n ++ "')" ++ r) = false ->
    resolve_table p (a ++ "ref('" ++ n ++ "')" ++ r) = resolve_ref p n.
  Proof.
    intros A1 A2 N1 N2 C. unfold TableName_Model.resolve_table. rewrite C. assert (X : (a ++ "ref('" ++ n ++ "')" ++ r = a ++ "ref(" ++ ("'" ++ n ++ "'") ++ ")" ++ r)%string) by (cbn [append]; rewrite !append_assoc; reflexivity). rewrite X.
    replace (contains "ref(" (a ++ "ref(" ++ ("'" ++ n ++ "'") ++ ")" ++ r)) with true by (symmetry; apply contains_spec; eauto). rewrite ref_arguments_of; [now rewrite drop_quotes|exact A1|exact A2|]. rewrite !has_char_app, N1. reflexivity.
  Qed.
  (** double quotes are part of the name *)
  Theorem C68_double_quotes_refuted p nodes a n r : p_manifest p = Some nodes -> (forall x, In x nodes -> has_char """" (n_key x) = false) ->
    has_char "(" a = false -> has_char ")" a = false -> has_char ")" n = false -> has_char "'" n = false -> contains "-- if" (a ++ "ref(""" ++ n ++ """)" ++ r) = false ->
    resolve_table p (a ++ "ref(""" ++ n ++ """)" ++ r) = Err QueryError.
  Proof.
    intros M K A1 A2 N1 N2 C. unfold TableName_Model.resolve_table. rewrite C. assert (X : (a ++ "ref(""" ++ n ++ """)" ++ r = a ++ "ref(" ++ ("""" ++ n ++ """") ++ ")" ++ r)%string) by (cbn [append]; rewrite !append_assoc; reflexivity). rewrite X.
    replace (contains "ref(" (a ++ "ref(" ++ ("""" ++ n ++ """") ++ ")" ++ r)) with true by (symmetry; apply contains_spec; eauto). rewrite ref_arguments_of; [|exact A1|exact A2|rewrite !has_char_app, N1; reflexivity].
    rewrite replace_none.
    - unfold resolve_ref. rewrite M. unfold resolve_name, resolve_node. destruct (List.find _ nodes) as [x|] eqn:F; [|reflexivity]. exfalso. apply find_some in F. destruct F as [I F]. apply String.eqb_eq in F. specialize (K x I).
      assert (Y : has_char """" (last_part (n_key x)) = false).
      { unfold last_part. assert (Z : forall y, In y (split_char dot (n_key x)) -> has_char """" y = false).
        { intros y Y. rewrite <- (split_char_join dot (n_key x)) in K. revert K Y. generalize (split_char dot (n_key x)). clear. intros l. induction l as [|z l IH]; intros K Y; [destruct Y|]. destruct l as [|z' l].
          - destruct Y as [<-|[]]. exact K.
          - assert (J : join_with (String dot "") (z :: z' :: l) = (z ++ String dot (join_with (String dot "") (z' :: l)))%string) by reflexivity. rewrite J, has_char_app in K. apply orb_false_iff in K. destruct K as [K1 K2]. destruct Y as [<-|Y]; [exact K1|]. apply IH; [|exact Y]. exact K2. }
        destruct (split_char dot (n_key x)) as [|y l] eqn:S; [reflexivity|]. apply Z. assert (L : y :: l <> []) by discriminate. destruct (exists_last L) as (l' & z & ->). rewrite last_last. apply in_app_iff. right. now left. }
      rewrite <- F in Y. discriminate Y.
    - destruct (contains "'" ("""" ++ n ++ """")) eqn:E; [|reflexivity]. apply contains_spec in E. destruct E as (x & y & E). assert (Z : has_char "'" ("""" ++ n ++ """") = true) by (rewrite E, !has_char_app; cbn; now rewrite orb_true_r). rewrite !has_char_app, N2 in Z. discriminate Z.
  Qed.
  (** a reference in a branch of an environment is not resolved *)
  Theorem C68_ref_in_environment_refuted p pre l b n : quiet pre -> quiet (drop_newlines pre) -> Forall good_branch (l ++ [b]) -> at_env p (named b) -> (forall x, In x l -> named x <> named b) ->
    b_text b = (" {{ ref('" ++ n ++ "') }}")%string -> has_char newline n = false -> resolve_table p (show pre (l ++ [b])) = Ok ("{{ ref('" ++ n ++ "') }}")%string.
  Proof.
    intros P P' G E N T NL. rewrite (C68_environment_last p pre l b P P' G E N). f_equal. unfold table_of. rewrite T, drop_newlines_none; [|rewrite !has_char_app, NL; reflexivity]. unfold strip.
    assert (R : forall s, rstrip (s ++ "}") = (s ++ "}")%string) by (induction s as [|c s IH]; [reflexivity|]; cbn [append rstrip]; rewrite IH; destruct s; reflexivity).
    replace (" {{ ref('" ++ n ++ "') }}")%string with ((" {{ ref('" ++ n ++ "') }") ++ "}")%string by (rewrite !append_assoc; reflexivity). rewrite R, !append_assoc. reflexivity.
  Qed.
End Conditional.

(** ** The manifest *)
(** the key of a node: its type, its package and its name *)
Definition node_key (type package name : string) : string := (type ++ "." ++ package ++ "." ++ name)%string.
Lemma last_part_key t k n : has_char dot n = false -> last_part (node_key t k n) = n.
Proof.
  intros H. unfold last_part, node_key. replace (t ++ "." ++ k ++ "." ++ n)%string with ((t ++ "." ++ k) ++ String dot n)%string by (rewrite !append_assoc; reflexivity).
  generalize (t ++ "." ++ k)%string. intros a. assert (L : exists l, split_char dot (a ++ String dot n) = l ++ [n]).
  { induction a as [|c a IH]; [exists [""]; cbn [append split_char]; rewrite Ascii.eqb_refl, (split_char_nochar _ _ H); reflexivity|]. destruct IH as [l E]. cbn [append split_char]. destruct (Ascii.eqb c dot); [exists ("" :: l); now rewrite E|]. rewrite E. destruct l as [|x l]; cbn [List.app].
    - exfalso. pose proof (split_char_length dot (a ++ String dot n)) as LN. rewrite E, count_char_app in LN. cbn [List.app List.length count_char] in LN. rewrite Ascii.eqb_refl in LN. lia.
    - exists (String c x :: l). reflexivity. }
  destruct L as [l ->]. apply last_last.
Qed.
(** C68: a reference names the table of the node of that name, in the schema of the connection if it has one *)
Theorem C68_node nodes n t k name : In n nodes -> n_key n = node_key t k name -> has_char dot name = false ->
  (forall m, In m nodes -> last_part (n_key m) = name -> m = n) ->
  resolve_name nodes name None = Ok (n_schema n ++ "." ++ n_alias n)%string /\ (forall s, resolve_name nodes name (Some s) = Ok (s ++ "." ++ n_alias n)%string).
Proof.
  intros I K D U. assert (F : resolve_node nodes name = Ok n).
  { unfold resolve_node. destruct (List.find (fun x => String.eqb name (last_part (n_key x))) nodes) as [m|] eqn:F.
    - apply find_some in F. destruct F as [J F]. apply String.eqb_eq in F. f_equal. apply U; [exact J|now symmetry].
    - exfalso. apply (find_none _ _ F n) in I. cbn beta in I. rewrite K, last_part_key, String.eqb_refl in I by exact D. discriminate I. }
  unfold resolve_name. rewrite F. split; [reflexivity|]. intros s. reflexivity.
Qed.
Theorem C68_node_missing nodes name o : (forall m, In m nodes -> last_part (n_key m) <> name) <-> resolve_name nodes name o = Err QueryError.
Proof.
  unfold resolve_name, resolve_node. split.
  - intros H. destruct (List.find _ nodes) as [m|] eqn:F; [|reflexivity]. exfalso. apply find_some in F. destruct F as [J F]. apply String.eqb_eq in F. apply (H m J). now symmetry.
  - destruct (List.find _ nodes) as [m|] eqn:F; [discriminate|]. intros _ m J E. apply (find_none _ _ F) in J. rewrite E, String.eqb_refl in J. discriminate J.
Qed.
(** whatever comes first in the manifest under that name is read, a model or not *)
Theorem C68_other_node_refuted nodes m k1 k2 name n : has_char dot name = false -> n_key m = node_key "analysis" k1 name -> n_key n = node_key "model" k2 name -> In n nodes ->
  resolve_name (m :: nodes) name None = Ok (to_table m).
Proof. intros D M _ _. unfold resolve_name, resolve_node. cbn [List.find]. rewrite M, last_part_key, String.eqb_refl by exact D. reflexivity. Qed.
(** a version of a model is not found under the name of the model, but under that of the version *)
Theorem C68_version_refuted n k name v : has_char dot name = false -> has_char dot v = false -> name <> v -> n_key n = node_key "model" k (name ++ "." ++ v) ->
  resolve_name [n] name None = Err QueryError /\ resolve_name [n] v None = Ok (to_table n).
Proof.
  intros D V N K. assert (L : last_part (n_key n) = v).
  { rewrite K. unfold node_key. replace ("model" ++ "." ++ k ++ "." ++ name ++ "." ++ v)%string with (node_key "model" (k ++ "." ++ name) v) by (unfold node_key; rewrite !append_assoc; reflexivity). now apply last_part_key. }
  split; unfold resolve_name, resolve_node; cbn [List.find]; rewrite L; [|now rewrite String.eqb_refl]. apply String.eqb_neq in N. rewrite N. reflexivity.
Qed.
(** C68: without a manifest the name itself is read in the schema of the connection, which must have one *)
Theorem C68_no_manifest p name : p_manifest p = None -> (forall s, p_schema p = Some s -> s <> "" -> resolve_ref p name = Ok (s ++ "." ++ name)%string) /\ (p_schema p = None \/ p_schema p = Some "" -> resolve_ref p name = Err QueryError).
Proof. intros M. unfold resolve_ref. rewrite M. split; [intros s -> N; apply String.eqb_neq in N; now rewrite N|intros [->| ->]; reflexivity]. Qed.
(** with a manifest an empty schema is used *)
Theorem C68_empty_schema_refuted env nodes n name : resolve_node nodes name = Ok n -> resolve_ref (Project env (Some nodes) (Some "")) name = Ok ("." ++ n_alias n)%string.
Proof. intros H. unfold resolve_ref. cbn [p_manifest p_schema]. unfold resolve_name. rewrite H. reflexivity. Qed.
(** the table of the same reference depends on the connection of the last query *)
Theorem C68_last_query_refuted p nodes n name s : p_manifest p = Some nodes -> resolve_node nodes name = Ok n -> has_char dot s = false -> has_char dot (n_schema n) = false -> n_schema n <> s ->
  resolve_ref (set_schema None p) name <> resolve_ref (set_schema (Some s) p) name.
Proof.
  intros M F D1 D2 N E. unfold resolve_ref in E. cbn [set_schema p_manifest p_schema] in E. rewrite M in E. unfold resolve_name in E. rewrite F in E. cbn [bind] in E. injection E as E. unfold to_table in E. apply N.
  change ("." ++ n_alias n)%string with (String dot (n_alias n)) in E. apply append_inj_r in E. exact E.
Qed.
(** C68: the tables of the models of the manifest, in a schema and with a name if they are given *)
Definition fits (o : option string) (x : string) : bool := match o with None => true | Some y => String.eqb x y end.
Theorem C68_models nodes schema table : manifest_models nodes schema table = map to_table (List.filter (fun n => String.eqb (n_type n) "model" && fits schema (n_schema n) && fits table (n_alias n)) nodes).
Proof.
  unfold manifest_models. induction nodes as [|n l IH]; [reflexivity|]. cbn [flat_map List.filter]. rewrite IH. unfold is_model, fits. destruct (String.eqb (n_type n) "model"), schema as [s|], table as [t|]; cbn [andb]; repeat match goal with |- context [if ?b then _ else _] => destruct b eqn:?; cbn [andb] in * end; try reflexivity; try discriminate; rewrite ?andb_true_r, ?andb_false_r in *; try congruence.
Qed.
Theorem C68_get_model nodes name : match manifest_model nodes name with Some n => In n nodes /\ n_type n = "model" /\ n_alias n = name | None => forall n, In n nodes -> n_type n = "model" -> n_alias n <> name end.
Proof.
  unfold manifest_model, is_model. destruct (List.find _ nodes) as [n|] eqn:F.
  - apply find_some in F. destruct F as [I F]. apply andb_true_iff in F. destruct F as [F1 F2]. apply String.eqb_eq in F1, F2. auto.
  - intros n I T A. apply (find_none _ _ F) in I. rewrite T, A, !String.eqb_refl in I. discriminate I.
Qed.
(** C68: a text without condition and reference is the table *)
Theorem C68_as_written special p s : contains "-- if" s = false -> contains "ref(" s = false -> resolve_table special p s = Ok s.
Proof. intros A B. unfold resolve_table. rewrite A, B. reflexivity. Qed.

Print Assumptions C68_environment_last.
Print Assumptions C68_environment_refuted.
Print Assumptions C68_hyphen_refuted.
Print Assumptions C68_environment_unknown.
Print Assumptions C68_ref.
Print Assumptions C68_double_quotes_refuted.
Print Assumptions C68_ref_in_environment_refuted.
Print Assumptions C68_node.
Print Assumptions C68_node_missing.
Print Assumptions C68_other_node_refuted.
Print Assumptions C68_version_refuted.
Print Assumptions C68_no_manifest.
Print Assumptions C68_empty_schema_refuted.
Print Assumptions C68_last_query_refuted.
Print Assumptions C68_models.
Print Assumptions C68_get_model.
Print Assumptions C68_as_written.

(** ** Cases *)
Definition no_special (c s : string) : res string := Err ValueError.
Definition dev : branch := Branch " dev " " dev_db.discounts ".
Definition prod : branch := Branch " prod " (" live.discounts" ++ String newline "").
Lemma good_dev : good_branch dev. Proof. split; try reflexivity. split; reflexivity. Qed.
Lemma good_prod : good_branch prod. Proof. split; try reflexivity. split; reflexivity. Qed.
Example C68_environment_case :
  Forall good_branch [dev; prod] /\ show "" [dev; prod] = ("-- if dev -- dev_db.discounts -- if prod -- live.discounts" ++ String newline "")%string
  /\ resolve_table no_special (Project (Some "prod") None None) (show "" [dev; prod]) = Ok "live.discounts"
  /\ resolve_table no_special (Project (Some "dev") None None) (show "" [dev; prod]) = Ok "if dev  dev_db.discounts"
  /\ resolve_table no_special (Project None None None) (show "" [dev; prod]) = Err QueryError.
Proof. split; [repeat constructor; try exact (g_hyphen _ good_dev); apply good_dev || apply good_prod|]. vm_compute. auto. Qed.
Example C68_hyphen_case : resolve_table no_special (Project (Some "dev") None None) "-- if dev -- my-project.dev.t -- if prod -- my-project.live.t" = Ok "my-project.dev.t -- if prod -- my-project.live.t".
Proof. vm_compute. reflexivity. Qed.
Definition orders_nodes : list node := [Node "analysis.shop.orders" "analysis" "scratch" "orders"; Node "model.shop.orders" "model" "analytics" "fct_orders"; Node "model.shop.items.v2" "model" "analytics" "items_v2"; Node "seed.shop.countries" "seed" "seeds" "countries"].
Example C68_ref_case :
  resolve_table no_special (Project None (Some (tl orders_nodes)) None) "{{ ref('orders') }}" = Ok "analytics.fct_orders"
  /\ resolve_table no_special (Project None (Some (tl orders_nodes)) (Some "dev")) "{{ ref('orders') }}" = Ok "dev.fct_orders"
  /\ resolve_table no_special (Project None (Some (tl orders_nodes)) None) "{{ ref(""orders"") }}" = Err QueryError
  /\ resolve_table no_special (Project None (Some orders_nodes) None) "{{ ref('orders') }}" = Ok "scratch.orders"
  /\ resolve_table no_special (Project None (Some orders_nodes) None) "{{ ref('items') }}" = Err QueryError
  /\ resolve_table no_special (Project None None (Some "live")) "{{ ref('orders') }}" = Ok "live.orders".
Proof. vm_compute. repeat split. Qed.
Example C68_models_case : manifest_models orders_nodes None None = ["analytics.fct_orders"; "analytics.items_v2"] /\ manifest_models orders_nodes (Some "analytics") (Some "items_v2") = ["analytics.items_v2"].
Proof. vm_compute. auto. Qed.
