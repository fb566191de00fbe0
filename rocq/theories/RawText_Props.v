(** C79: SQL text written by the caller. *)
From Coq Require Import List String Ascii Bool Arith Lia.
From Verif Require Import PyBase PyStr PyReplace Core_Model Access_Spec RawText_Model.
Import ListNotations.
Local Open Scope string_scope.
Local Open Scope list_scope.

(** ** The names of a clause *)
(** What a clause is made of: names joined by dots, and anything else *)
Inductive item := Dotted (n : string) (r : list string) | Else (t : token).
Definition dot_token : token := (KPunctuation, ".").
Definition tokens_of (i : item) : list token :=
  match i with Dotted n r => (KName, n) :: flat_map (fun m => [dot_token; (KName, m)]) r | Else t => [t] end.
Definition proper (i : item) : Prop :=
  match i with Dotted n r => n <> "." /\ ~ In "." r | Else t => fst t <> KName /\ snd t <> "." end.
(** the names referred to, as written *)
Definition names_in (l : list item) : list string :=
  flat_map (fun i => match i with Dotted n r => [String.concat "." (n :: r)] | Else _ => [] end) l.

Lemma concat_snoc n r m : String.concat "." (n :: r ++ [m]) = (String.concat "." (n :: r) ++ "." ++ m)%string.
Proof.
  revert n. induction r as [|x r IH]; intros n; [reflexivity|]. change (String.concat "." (n :: (x :: r) ++ [m])) with (n ++ "." ++ String.concat "." (x :: r ++ [m]))%string. rewrite IH.
  change (String.concat "." (n :: x :: r)) with (n ++ "." ++ String.concat "." (x :: r))%string. now rewrite !append_assoc.
Qed.
Lemma identifiers_dots n0 r prev rest acc done n : fst prev = KName -> ~ In "." (n0 :: r) -> snd prev = n ->
  identifiers false prev (flat_map (fun m => [dot_token; (KName, m)]) r ++ rest) (String.concat "." (n0 :: done) :: acc) =
  identifiers false (last (map (fun m => (KName, m)) r) prev) rest (String.concat "." (n0 :: done ++ r) :: acc).
Proof.
  revert prev done n. induction r as [|m r IH]; intros prev done n P D S; [cbn; now rewrite app_nil_r|].
  cbn [flat_map List.app identifiers]. assert (PN : is_name prev = true) by (unfold is_name; now rewrite P). rewrite PN. cbn [is_dot is_name fst snd dot_token String.eqb Ascii.eqb Bool.eqb andb negb orb extend bind].
  assert (M : is_dot (KName, m) = false) by reflexivity. rewrite <- concat_snoc. rewrite (IH (KName, m) (done ++ [m]) m); [|reflexivity| |reflexivity].
  - rewrite <- app_assoc. cbn [List.app]. f_equal. cbn [map]. destruct (map _ r) eqn:E; [reflexivity|]. change (last ((KName, m) :: p :: l) prev) with (last (p :: l) prev). clear. revert p. induction l as [|q l IHl]; intros p; [reflexivity|]. exact (IHl q).
  - intros [X|X]; apply D; cbn; tauto.
Qed.
Lemma identifiers_items l first prev acc : Forall proper l -> (first = false -> snd prev <> ".") ->
  identifiers first prev (flat_map tokens_of l) acc = Ok (rev acc ++ names_in l).
Proof.
  revert first prev acc. induction l as [|i l IH]; intros first prev acc P D; [cbn; now rewrite app_nil_r|].
  inversion P as [|? ? Pi Pl]; subst. destruct i as [n r|t].
  - cbn [flat_map tokens_of List.app identifiers]. assert (F : first || negb (String.eqb (snd prev) ".") = true).
    { destruct first; [reflexivity|]. cbn [orb]. apply negb_true_iff. apply String.eqb_neq. auto. }
    rewrite F. cbn [is_name is_dot fst snd andb bind]. destruct Pi as [N R].
    change (n :: acc) with (String.concat "." (n :: []) :: acc). rewrite (identifiers_dots n r (KName, n) _ acc [] n); [|reflexivity| |reflexivity].
    + rewrite IH; [|exact Pl|].
      * cbn [rev List.app names_in flat_map]. now rewrite <- app_assoc.
      * intros _ X. assert (I : In (last (map (fun m => (KName, m)) r) (KName, n)) ((KName, n) :: map (fun m => (KName, m)) r)).
        { clear. generalize (KName, n). induction (map (fun m : string => (KName, m)) r) as [|a q IHq]; intros d; [now left|]. destruct q as [|b q]; [right; now left|]. right. specialize (IHq a). assert (L : forall x y q0 (b0 : token), last (b0 :: q0) x = last (b0 :: q0) y) by (intros x y q0; induction q0 as [|c0 q0 IH0]; intros b0; [reflexivity|exact (IH0 c0)]). change (last (a :: b :: q) d) with (last (b :: q) d). rewrite (L d a). exact IHq. }
        destruct I as [E|I]; [rewrite <- E in X; exact (N X)|]. apply in_map_iff in I. destruct I as (m & E & I). rewrite <- E in X. cbn [snd] in X. subst m. exact (R I).
    + intros [X|X]; auto.
  - cbn [flat_map tokens_of List.app identifiers]. destruct t as [k x]. destruct Pi as [K X]. cbn [fst snd] in K, X. assert (KN : is_name (k, x) = false) by (destruct k; [congruence|reflexivity|reflexivity]).
    assert (KD : is_dot (k, x) = false) by (destruct k; [reflexivity| |reflexivity]; cbn; now apply String.eqb_neq). rewrite KN, KD. cbn [andb bind]. rewrite IH; [reflexivity|exact Pl|intros _; exact X].
Qed.
(** C79: the names reported are exactly the names, with their dots, that the clause is made of *)
Theorem C79_names lex text l : lex text = Some (flat_map tokens_of l) -> Forall proper l -> parse_identifiers lex (Some text) = Ok (names_in l).
Proof. intros L P. unfold parse_identifiers. rewrite L. rewrite identifiers_items; [reflexivity|exact P|discriminate]. Qed.
(** C79: a clause is accepted only if each of its names is a field, and the fields it uses are exactly those of its names *)
Theorem C79_fields lex p text l : lex text = Some (flat_map tokens_of l) -> Forall proper l ->
  (forall fs, clause_fields lex p (Some text) = Ok fs <-> Forall2 (fun n f => fst f = n /\ get_field p n None = Ok (snd f)) (names_in l) fs) /\
  (forall n e, In n (names_in l) -> get_field p n None = Err e -> exists e', clause_fields lex p (Some text) = Err e').
Proof.
  intros L P. unfold clause_fields. rewrite (C79_names lex text l L P). cbn [bind]. split.
  - intros fs. rewrite mapM_ok. split; intros F; induction F as [|n f ns fs H F IH]; constructor; auto.
    + apply bind_ok in H. destruct H as (g & G & [= <-]). auto.
    + destruct f as [m g]. destruct H as [<- G]. cbn [fst snd] in *. rewrite G. reflexivity.
  - intros n e I E. destruct (mapM _ (names_in l)) as [fs|e'] eqn:M; [|eauto]. exfalso. apply mapM_ok in M. revert I. induction M as [|x f ns fs H M IH]; [intros []|]. intros [->|I]; [|auto]. rewrite E in H. discriminate H.
Qed.

(** ** Columns *)
(** the word as between spaces, in any case *)
Definition an_as (v : string) : Prop := exists b c, v = String " " (String b (String c " ")) /\ lower_ascii b = "a"%char /\ lower_ascii c = "s"%char.
Definition starts_as (s : string) : bool := match s with String a (String b (String c (String d _))) => is_as4 a b c d | _ => false end.
Lemma lower_space c : Ascii.eqb (lower_ascii c) " " = Ascii.eqb c " ".
Proof. destruct c as [[] [] [] [] [] [] [] []]; vm_compute; reflexivity. Qed.
Lemma starts_as_lower s t : lower s = lower t -> starts_as s = starts_as t.
Proof.
  destruct s as [|a [|b [|c [|d s]]]], t as [|a' [|b' [|c' [|d' t]]]]; cbn [lower]; intros E; try discriminate E; try reflexivity. injection E as A B C D _. unfold starts_as, is_as4. rewrite <- (lower_space a), <- (lower_space d), A, B, C, D, !lower_space. reflexivity.
Qed.
Lemma an_as_spec v r : an_as v -> starts_as (v ++ r) = true /\ find_as (v ++ r) = v :: find_as r.
Proof. intros (b & c & -> & B & C). cbn [append starts_as find_as]. unfold is_as4. rewrite B, C. split; reflexivity. Qed.
Lemma find_as_skip c s : starts_as (String c s) = false -> find_as (String c s) = find_as s.
Proof. destruct s as [|b [|x [|d s]]]; try reflexivity. intros S. cbn [starts_as] in S. cbn [find_as]. now rewrite S. Qed.
Lemma lower_as v : an_as v -> lower v = " as ".
Proof. intros (b & c & -> & B & C). cbn [lower]. rewrite B, C. reflexivity. Qed.
Lemma lower_app a b : lower (a ++ b)%string = (lower a ++ lower b)%string.
Proof. induction a as [|c a IH]; [reflexivity|]. cbn [append lower]. now rewrite IH. Qed.

(** no as starts inside [e], when [r] follows *)
Fixpoint clear (e r : string) : Prop := match e with "" => True | String _ e' => starts_as (e ++ r) = false /\ clear e' r end.
(** texts separated by ases, and a last text *)
Fixpoint glue (l : list (string * string)) (z : string) : string := match l with [] => z | (e, v) :: r => (e ++ v ++ glue r z)%string end.
Fixpoint separated (l : list (string * string)) (z : string) : Prop :=
  match l with
  | [] => find_as z = []
  | (e, v) :: r => an_as v /\ clear e (v ++ glue r z) /\ starts_as (String " " (glue r z)) = false /\ separated r z
  end.
Lemma clear_lower e r r' : lower r = lower r' -> clear e r -> clear e r'.
Proof.
  intros L. induction e as [|c e IH]; [auto|]. cbn [clear]. intros [A B]. split; [|auto]. rewrite <- A. apply starts_as_lower. rewrite !lower_app, L. reflexivity.
Qed.
Definition renamed (x : string) (kv : string * string) : string * string := (fst kv, if String.eqb (snd kv) x then " AS " else snd kv).
Lemma upper_as : an_as " AS ". Proof. exists "A"%char, "S"%char. repeat split. Qed.
Lemma renamed_as x v : an_as v -> an_as (if String.eqb v x then " AS " else v).
Proof. intros A. destruct (String.eqb v x); [exact upper_as|exact A]. Qed.
Lemma glue_lower x l z : separated l z -> lower (glue (map (renamed x) l) z) = lower (glue l z).
Proof.
  induction l as [|[e v] l IH]; [reflexivity|]. cbn [separated glue map renamed fst snd]. intros (A & _ & _ & S). rewrite !lower_app, IH by exact S. rewrite (lower_as v A), (lower_as _ (renamed_as x v A)). reflexivity.
Qed.
Lemma separated_renamed x l z : separated l z -> separated (map (renamed x) l) z.
Proof.
  induction l as [|[e v] l IH]; [auto|]. cbn [separated map renamed fst snd]. intros (A & C & H & S). split; [now apply renamed_as|]. split; [|split; [|auto]].
  - eapply clear_lower; [|exact C]. rewrite !lower_app, (glue_lower x l z S), (lower_as v A), (lower_as _ (renamed_as x v A)). reflexivity.
  - refine (eq_trans _ H). apply starts_as_lower. cbn [lower]. now rewrite (glue_lower x l z S).
Qed.
Lemma prefix_as x s : an_as x -> starts_as s = false -> strip_prefix x s = None.
Proof.
  intros A S. destruct (strip_prefix x s) as [r|] eqn:E; [|reflexivity]. apply strip_prefix_some in E. rewrite E in S. rewrite (proj1 (an_as_spec x r A)) in S. discriminate S.
Qed.
Lemma as_ne x : an_as x -> x <> "". Proof. intros (b & c & -> & _). discriminate. Qed.
Lemma replace_clear x e r : an_as x -> clear e r -> replace x " AS " (e ++ r) = (e ++ replace x " AS " r)%string.
Proof.
  intros A. induction e as [|c e IH]; [reflexivity|]. cbn [clear]. intros [S C]. cbn [append]. rewrite replace_skip; [now rewrite IH|now apply as_ne|]. now apply prefix_as.
Qed.
Lemma replace_free x z : an_as x -> find_as z = [] -> replace x " AS " z = z.
Proof.
  intros A. induction z as [|c z IH]; intros F.
  - rewrite replace_unfold by now apply as_ne. rewrite prefix_as; auto.
  - destruct (starts_as (String c z)) eqn:S.
    + destruct z as [|b [|d [|e z]]]; try discriminate S. cbn [starts_as] in S. cbn [find_as] in F. rewrite S in F. discriminate F.
    + rewrite replace_skip; [|now apply as_ne|now apply prefix_as]. rewrite find_as_skip in F by exact S. now rewrite IH.
Qed.
(** inside an as, only at its last space another one could start *)
Lemma replace_other x v r : an_as x -> an_as v -> v <> x -> starts_as (String " " r) = false -> replace x " AS " (v ++ r) = (v ++ replace x " AS " r)%string.
Proof.
  intros A (b & c & -> & B & C) N H. assert (XN := as_ne x A).
  assert (E1 : strip_prefix x (String " " (String b (String c (String " " r)))) = None).
  { destruct (strip_prefix x _) as [q|] eqn:E; [|reflexivity]. apply strip_prefix_some in E. destruct A as (b' & c' & -> & _). cbn [append] in E. injection E as <- <- _. exfalso. now apply N. }
  assert (SB : Ascii.eqb b " " = false) by (rewrite <- lower_space, B; reflexivity). assert (SC : Ascii.eqb c " " = false) by (rewrite <- lower_space, C; reflexivity).
  cbn [append]. rewrite replace_skip; [|exact XN|exact E1]. f_equal.
  rewrite replace_skip; [|exact XN|apply prefix_as; [exact A|unfold starts_as, is_as4; destruct r as [|d r]; [reflexivity|now rewrite SB]]]. f_equal.
  rewrite replace_skip; [|exact XN|apply prefix_as; [exact A|unfold starts_as, is_as4; destruct r as [|d [|d' r]]; try reflexivity; now rewrite SC]]. f_equal.
  rewrite replace_skip; [reflexivity|exact XN|now apply prefix_as].
Qed.
Lemma replace_glue x l z : an_as x -> separated l z -> replace x " AS " (glue l z) = glue (map (renamed x) l) z.
Proof.
  intros A. induction l as [|[e v] l IH]; cbn [separated glue map renamed fst snd]; [now apply replace_free|]. intros (V & C & H & S). rewrite replace_clear by auto. f_equal. destruct (String.eqb v x) eqn:E.
  - apply String.eqb_eq in E. subst v. rewrite replace_head by now apply as_ne. f_equal. auto.
  - apply String.eqb_neq in E. rewrite replace_other by auto. f_equal. auto.
Qed.
Lemma find_glue l z : separated l z -> find_as (glue l z) = map snd l.
Proof.
  induction l as [|[e v] l IH]; cbn [separated glue map snd]; [auto|]. intros (V & C & _ & S). assert (X : find_as (e ++ v ++ glue l z) = find_as (v ++ glue l z)).
  { clear IH S. revert C. generalize (v ++ glue l z)%string as r. induction e as [|c e IH]; intros r; [reflexivity|]. cbn [clear append]. intros [A B]. rewrite find_as_skip by exact A. auto. }
  rewrite X. rewrite (proj2 (an_as_spec v (glue l z) V)). now rewrite IH.
Qed.
Lemma fold_glue ms l z : Forall an_as ms -> separated l z -> fold_left (fun s m => replace m " AS " s) ms (glue l z) = glue (map (fun kv => (fst kv, if existsb (String.eqb (snd kv)) ms then " AS " else snd kv)) l) z.
Proof.
  revert l. induction ms as [|m ms IH]; intros l A S; cbn [fold_left existsb].
  - f_equal. symmetry. rewrite <- (map_id l) at 2. apply map_ext. now intros [e v].
  - inversion A as [|? ? Am Ams]; subst. rewrite replace_glue by auto. rewrite IH by (auto using separated_renamed). f_equal. rewrite map_map. apply map_ext. intros [e v]. unfold renamed. cbn [fst snd]. f_equal. destruct (String.eqb v m); cbn [orb]; [|reflexivity]. destruct (existsb _ ms); reflexivity.
Qed.
Lemma split_enough sep : sep <> "" -> forall f f' s, String.length s < f -> String.length s < f' -> split_fuel f sep s = split_fuel f' sep s.
Proof.
  intros N. induction f as [|f IH]; intros [|f'] s L L'; try lia. cbn [split_fuel]. destruct (strip_prefix sep s) as [r|] eqn:E.
  - apply strip_prefix_length in E. assert (0 < String.length sep) by (destruct sep; [congruence|cbn; lia]). f_equal. apply IH; lia.
  - destruct s as [|c s]; [reflexivity|]. cbn [String.length] in L, L'. rewrite (IH f' s) by lia. reflexivity.
Qed.
Lemma split_unfold sep s : sep <> "" -> split sep s = match strip_prefix sep s with Some r => "" :: split sep r | None => match s with "" => [""] | String c r => match split sep r with x :: xs => String c x :: xs | [] => [String c ""] end end end.
Proof.
  intros N. unfold split at 1. cbn [split_fuel]. destruct (strip_prefix sep s) as [r|] eqn:E.
  - apply strip_prefix_length in E. assert (0 < String.length sep) by (destruct sep; [congruence|cbn; lia]). f_equal. unfold split. apply split_enough; auto; lia.
  - destruct s as [|c s]; reflexivity.
Qed.
Lemma split_glue l z : separated l z -> (forall kv, In kv l -> snd kv = " AS ") -> split " AS " (glue l z) = map fst l ++ [z].
Proof.
  assert (N : " AS " <> "") by discriminate. induction l as [|[e v] l IH]; cbn [separated glue map fst List.app]; intros S V.
  - revert S. induction z as [|c z IHz]; intros F; [reflexivity|]. rewrite split_unfold by exact N. destruct (starts_as (String c z)) eqn:S.
    + destruct z as [|b [|d [|e z]]]; try discriminate S. cbn [starts_as] in S. cbn [find_as] in F. rewrite S in F. discriminate F.
    + rewrite prefix_as; [|exact upper_as|exact S]. rewrite find_as_skip in F by exact S. now rewrite IHz.
  - destruct S as (A & C & H & S). assert (E : v = " AS ") by exact (V (e, v) (or_introl eq_refl)). subst v. specialize (IH S (fun kv I => V kv (or_intror I))). remember (glue l z) as g eqn:G. clear G H V S A.
    assert (X : forall e0, clear e0 (" AS " ++ g) -> split " AS " (e0 ++ " AS " ++ g) = e0 :: split " AS " g).
    { induction e0 as [|c e0 IH0]; [intros _; cbn [append]; rewrite split_unfold by exact N; reflexivity|]. cbn [clear]. intros [A B]. rewrite split_unfold by exact N. change (String c e0 ++ " AS " ++ g)%string with (String c (e0 ++ " AS " ++ g)) in *. rewrite prefix_as; [|exact upper_as|exact A]. rewrite IH0 by exact B. reflexivity. }
    rewrite X by exact C. now rewrite IH.
Qed.
Lemma removelast_snoc {A} (l : list A) x : removelast (l ++ [x]) = l.
Proof. rewrite removelast_app by discriminate. cbn. apply app_nil_r. Qed.
(** C79: whatever the text, unless an as directly follows an as, it is grouped by what precedes its last as, every other as written in capitals; without any as, by itself *)
Theorem C79_grouped_by l z : separated l z -> strip_alias (glue l z) = match l with [] => z | _ => String.concat " AS " (map fst l) end.
Proof.
  intros S. unfold strip_alias. rewrite (find_glue l z S). destruct l as [|[e v] l]; [reflexivity|].
  assert (AS : Forall an_as (map snd ((e, v) :: l))).
  { clear -S. revert S. generalize ((e, v) :: l). intros l0. induction l0 as [|[e' v'] l0 IH]; [constructor|]. cbn [separated map snd]. intros (A & _ & _ & S). constructor; auto. }
  cbn [map snd]. change (v :: map snd l) with (map snd ((e, v) :: l)). rewrite fold_glue by auto. rewrite split_glue.
  - rewrite removelast_snoc. f_equal. rewrite map_map. change (fst (e, v) :: map fst l) with (map fst ((e, v) :: l)). now apply map_ext.
  - clear AS. assert (G : forall ms l0, separated l0 z -> separated (map (fun kv => (fst kv, if existsb (String.eqb (snd kv)) ms then " AS " else snd kv)) l0) z).
    { induction ms as [|m ms IH]; intros l0 S0; [cbn [existsb]; rewrite <- (map_id l0) in S0; erewrite map_ext; [exact S0|now intros [a b]]|]. pose proof (IH _ (separated_renamed m l0 z S0)) as X. rewrite map_map in X. erewrite map_ext; [exact X|]. intros [a b]. unfold renamed. cbn [fst snd existsb]. f_equal. destruct (String.eqb b m); cbn [orb]; [destruct (existsb _ ms); reflexivity|reflexivity]. }
    now apply G.
  - intros kv I. apply in_map_iff in I. destruct I as ([a b] & <- & I). cbn [fst snd]. assert (X : existsb (String.eqb b) (map snd ((e, v) :: l)) = true) by (apply existsb_exists; exists b; split; [exact (in_map snd _ _ I)|apply String.eqb_refl]). now rewrite X.
Qed.

Lemma find_clear e r : clear e r -> find_as (e ++ r) = find_as r.
Proof. induction e as [|c e IH]; [reflexivity|]. cbn [clear append]. intros [A B]. rewrite find_as_skip by exact A. auto. Qed.
Lemma find_none_starts s : find_as s = [] -> starts_as s = false.
Proof. destruct s as [|a [|b [|c [|d s]]]]; try reflexivity. cbn [starts_as find_as]. destruct (is_as4 a b c d); [discriminate|reflexivity]. Qed.
Lemma find_none_tail c s : find_as (String c s) = [] -> find_as s = [].
Proof. intros F. rewrite find_as_skip in F; [exact F|]. now apply find_none_starts. Qed.
(** no spaced as in a text followed by a space: none starts in it before an as *)
Lemma clear_of e v g : an_as v -> find_as (e ++ " ") = [] -> clear e (v ++ g).
Proof.
  intros (b & c & -> & B & C). induction e as [|x e IH]; intros F; [exact I|]. cbn [append] in F. cbn [clear append]. split; [|apply IH; exact (find_none_tail _ _ F)]. apply find_none_starts in F.
  assert (SB : Ascii.eqb b " " = false) by (rewrite <- lower_space, B; reflexivity).
  destruct e as [|y [|w [|u e]]]; cbn [append starts_as] in *; unfold is_as4 in *.
  - rewrite B. change (Ascii.eqb (lower_ascii " ") "a") with false. now rewrite andb_false_r.
  - rewrite SB. now rewrite !andb_false_r.
  - exact F.
  - exact F.
Qed.
(** C79: a column written as an expression, the word as and a name is grouped by the expression as written, when no spaced as is written in it *)
Theorem C79_column e v a : an_as v -> find_as (e ++ " ") = [] -> find_as (String " " a) = [] -> strip_alias (e ++ v ++ a) = e.
Proof.
  intros V E N. assert (S : separated [(e, v)] a).
  { cbn [separated glue]. split; [exact V|]. split; [now apply clear_of|]. split; [now apply find_none_starts|exact (find_none_tail _ _ N)]. }
  exact (C79_grouped_by [(e, v)] a S).
Qed.
(** C79: a column without an alias is grouped by itself, when no spaced as is written in it *)
Theorem C79_bare_column s : find_as s = [] -> strip_alias s = s.
Proof. intros F. exact (C79_grouped_by [] s F). Qed.
(** C79: the columns given as text are selected last, as written, and unless the query does not group, each is a group of its own *)
Theorem C79_selected fields raw groups : with_raw_select fields raw = fields ++ raw /\
  (forall ls, Forall2 (fun t e => (exists v a, an_as v /\ t = (e ++ v ++ a)%string /\ find_as (e ++ " ") = [] /\ find_as (String " " a) = []) \/ (t = e /\ find_as t = [])) raw ls -> with_raw_groups false groups raw = groups ++ ls) /\
  with_raw_groups true groups raw = [].
Proof.
  split; [reflexivity|]. split; [|reflexivity]. intros ls F. unfold with_raw_groups. f_equal. induction F as [|t e ts es H F IH]; [reflexivity|]. cbn [map]. rewrite IH. f_equal. destruct H as [(v & a & V & -> & E & A)|[-> N]]; [now apply C79_column|now apply C79_bare_column].
Qed.

(** ** What does not hold *)
(** Refuted: a column that writes no alias, but has a spaced as in its expression, is grouped by the text before it, which is no expression *)
Theorem C79_cast_refuted x t v : an_as v -> find_as ("cast(" ++ x ++ " ") = [] -> find_as (String " " (t ++ ")")) = [] ->
  strip_alias ("cast(" ++ x ++ v ++ t ++ ")") = ("cast(" ++ x)%string.
Proof. intros V E A. change ("cast(" ++ x ++ v ++ t ++ ")")%string with (("cast(" ++ x) ++ v ++ (t ++ ")"))%string. now apply C79_column. Qed.
(** Refuted: a spaced as inside the expression is written in capitals in the group, and not in the column, so that a text in quotes there is another *)
Theorem C79_capitals_refuted : exists e e' n, strip_alias (e ++ " as " ++ n) = e' /\ e' <> e /\ with_raw_select [] [(e ++ " as " ++ n)%string] = [(e ++ " as " ++ n)%string].
Proof. exists "replace(x,' as ','-')", "replace(x,' AS ','-')", "n". split; [vm_compute; reflexivity|]. split; [discriminate|reflexivity]. Qed.
(** Refuted: an alias written after a line break is grouped with its expression *)
Theorem C79_newline_refuted e a : find_as e = [] -> find_as (String " " a) = [] ->
  strip_alias (e ++ String "010" ("as " ++ a)) = (e ++ String "010" ("as " ++ a))%string.
Proof.
  intros E A. apply C79_bare_column. assert (T : find_as (String "010" ("as " ++ a)) = []).
  { change (find_as (String "010" (String "a" (String "s" (String " " a)))) = []). rewrite find_as_skip by reflexivity. rewrite find_as_skip by (destruct a; reflexivity). rewrite find_as_skip by (destruct a as [|? [|? a]]; reflexivity). exact A. }
  rewrite find_clear; [exact T|]. generalize ("as " ++ a)%string as r. intros r. clear -E. induction e as [|x e IH]; [exact I|]. cbn [clear append]. split; [|apply IH; exact (find_none_tail _ _ E)]. apply find_none_starts in E.
  destruct e as [|y [|w [|u e]]]; cbn [append starts_as] in *; unfold is_as4 in *; destruct r as [|r1 [|r2 r]]; try reflexivity; try exact E; repeat match goal with |- context [Ascii.eqb (lower_ascii "010") ?k] => change (Ascii.eqb (lower_ascii "010") k) with false | |- context [Ascii.eqb "010" " "] => change (Ascii.eqb "010" " ") with false end; now rewrite ?andb_false_r.
Qed.
Lemma no_names l prev first : (forall t, In t l -> fst t = KOther) -> identifiers first prev l [] = Ok [].
Proof.
  revert first prev. induction l as [|t l IH]; intros first prev O; [reflexivity|]. cbn [identifiers]. unfold is_name, is_dot. rewrite (O t (or_introl eq_refl)). cbn [andb bind]. apply IH. intros u U. apply O. now right.
Qed.
(** Refuted: a word that is a keyword or a built in name of SQL is never looked up, though a field may have that name: the clause then uses no field *)
Theorem C79_keyword_refuted lex p text l : lex text = Some l -> (forall t, In t l -> fst t = KOther) -> clause_fields lex p (Some text) = Ok [].
Proof. intros L O. unfold clause_fields, parse_identifiers. rewrite L. rewrite no_names by exact O. reflexivity. Qed.
(** Refuted: a clause that calls a function, whose name is a name like any other, is refused for lack of a field of that name *)
Theorem C79_function_refuted lex p text l f e : lex text = Some (flat_map tokens_of l) -> Forall proper l -> In (Dotted f []) l -> get_field p f None = Err e ->
  exists e', clause_fields lex p (Some text) = Err e'.
Proof.
  intros L P I E. apply (proj2 (C79_fields lex p text l L P) f e); [|exact E]. unfold names_in. apply in_flat_map. exists (Dotted f []). split; [exact I|now left].
Qed.
(** Refuted: a text without a statement, and a text that ends in a name and a dot, stop the query with an IndexError and no message *)
Theorem C79_no_message_refuted lex p text :
  (lex text = None -> clause_fields lex p (Some text) = Err IndexError) /\
  (forall l n, Forall proper l -> n <> "." -> lex text = Some (flat_map tokens_of l ++ [(KName, n); dot_token]) -> clause_fields lex p (Some text) = Err IndexError).
Proof.
  split; unfold clause_fields, parse_identifiers; [now intros ->|]. intros l n P N ->.
  assert (G : forall l first prev acc, Forall proper l -> (first = false -> snd prev <> ".") -> identifiers first prev (flat_map tokens_of l ++ [(KName, n); dot_token]) acc = Err IndexError).
  { clear l P. induction l as [|i l IH]; intros first prev acc P D.
    - cbn [flat_map List.app identifiers]. reflexivity.
    - inversion P as [|? ? Pi Pl]; subst. destruct i as [m r|t].
      + cbn [flat_map tokens_of List.app identifiers]. assert (F : first || negb (String.eqb (snd prev) ".") = true) by (destruct first; [reflexivity|]; cbn [orb]; apply negb_true_iff, String.eqb_neq; auto).
        rewrite F. cbn [is_name is_dot fst snd andb bind]. destruct Pi as [M R]. change (m :: acc) with (String.concat "." (m :: []) :: acc). rewrite <- app_assoc. rewrite (identifiers_dots m r (KName, m) _ acc [] m); [|reflexivity|intros [X|X]; auto|reflexivity].
        apply IH; [exact Pl|]. intros _ X. assert (I : In (last (map (fun m => (KName, m)) r) (KName, m)) ((KName, m) :: map (fun m => (KName, m)) r)).
        { clear. generalize (KName, m). induction (map (fun m : string => (KName, m)) r) as [|a q IHq]; intros d; [now left|]. destruct q as [|b q]; [right; now left|]. right. specialize (IHq a). assert (L : forall x y q0 (b0 : token), last (b0 :: q0) x = last (b0 :: q0) y) by (intros x y q0; induction q0 as [|c0 q0 IH0]; intros b0; [reflexivity|exact (IH0 c0)]). change (last (a :: b :: q) d) with (last (b :: q) d). rewrite (L d a). exact IHq. }
        destruct I as [E|I]; [rewrite <- E in X; exact (M X)|]. apply in_map_iff in I. destruct I as (m' & E & I). rewrite <- E in X. cbn [snd] in X. subst m'. exact (R I).
      + cbn [flat_map tokens_of List.app identifiers]. destruct t as [k x]. destruct Pi as [K X]. cbn [fst snd] in K, X. assert (KN : is_name (k, x) = false) by (destruct k; [congruence|reflexivity|reflexivity]).
        assert (KD : is_dot (k, x) = false) by (destruct k; [reflexivity| |reflexivity]; cbn; now apply String.eqb_neq). rewrite KN, KD. cbn [andb bind]. apply IH; [exact Pl|intros _; exact X]. }
  rewrite G; [reflexivity|exact P|discriminate].
Qed.
(** Refuted: a column given as text that aggregates is a group as well, which no warehouse accepts *)
Theorem C79_aggregate_refuted groups x v a : an_as v -> find_as ("sum(" ++ x ++ ")" ++ " ") = [] -> find_as (String " " a) = [] ->
  In ("sum(" ++ x ++ ")")%string (with_raw_groups false groups [("sum(" ++ x ++ ")" ++ v ++ a)%string]).
Proof.
  intros V E A. unfold with_raw_groups. apply in_or_app. right. left. transitivity (strip_alias (("sum(" ++ x ++ ")") ++ v ++ a)); [now rewrite !append_assoc|]. apply C79_column; [exact V| |exact A]. rewrite !append_assoc. exact E.
Qed.

(** ** Cases *)
Example C79_names_case : let l := [Dotted "orders" ["sales_channel"]; Else (KOther, " "); Else (KOther, "="); Else (KOther, "'Web'"); Else (KOther, "and"); Dotted "region" []] in
  Forall proper l /\ names_in l = ["orders.sales_channel"; "region"] /\ parse_identifiers (fun _ => Some (flat_map tokens_of l)) (Some "") = Ok ["orders.sales_channel"; "region"].
Proof. split; [repeat constructor; cbn; intuition discriminate|split; reflexivity]. Qed.
Example C79_case_case : strip_alias "CAST(x AS INT) as Id" = "CAST(x AS INT)" /\ strip_alias "cast(x as int) aS id" = "cast(x AS int)" /\ strip_alias "cast(x as int)" = "cast(x" /\ strip_alias "x as as as y" = "x AS AS".
Proof. repeat split; vm_compute; reflexivity. Qed.
Example C79_separated_case : separated [("cast(x", " as "); ("int)", " aS ")] "id" /\ glue [("cast(x", " as "); ("int)", " aS ")] "id" = "cast(x as int) aS id".
Proof. split; [|reflexivity]. cbn. repeat split; try reflexivity; [exists "a"%char, "s"%char|exists "a"%char, "S"%char]; repeat split. Qed.
Example C79_column_case : an_as " as " /\ find_as ("upper(name) " ++ " ") = [] /\ find_as (String " " "n") = [].
Proof. split; [exists "a"%char, "s"%char; repeat split|split; reflexivity]. Qed.

Print Assumptions C79_names.
Print Assumptions C79_fields.
Print Assumptions C79_grouped_by.
Print Assumptions C79_column.
Print Assumptions C79_bare_column.
Print Assumptions C79_selected.
Print Assumptions C79_cast_refuted.
Print Assumptions C79_capitals_refuted.
Print Assumptions C79_newline_refuted.
Print Assumptions C79_keyword_refuted.
Print Assumptions C79_function_refuted.
Print Assumptions C79_no_message_refuted.
Print Assumptions C79_aggregate_refuted.
