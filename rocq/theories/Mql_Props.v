(** Specification and property theorems: C49. *)
From Verif Require Import PyBase PyStr PyReplace JoinAs_Model Mql_Model.
Local Open Scope string_scope.
Local Open Scope list_scope.
Local Open Scope nat_scope.

(** ** The grammar *)
(** Words that begin another part. *)
Definition switches (k : mtok) : Prop := In (upper (text k)) ["BY"; "HAVING"; "ORDER BY"; "FOR"; "FUNNEL"; "THEN"; "WITHIN"].
Definition blank (k : mtok) : Prop := exists t, k = TWs t /\ strip (upper t) = "".
(** A token that lists field names. *)
Inductive lists : mtok -> list string -> Prop :=
| lists_blank k : blank k -> lists k []
| lists_one t : is_funnel (TId t) = false -> lists (TId t) [t]
| lists_many ids t : is_funnel (TIds ids t) = false -> lists (TIds ids t) ids.
(** A token that belongs to the part it stands in. *)
Definition plain (k : mtok) : Prop := is_funnel k = false /\ (is_kw k = true -> ~ switches k).
(** A token of a funnel condition: no keyword (they are lost, see below) except AND and OR *)
Definition condition_tok (k : mtok) : Prop :=
  is_funnel k = false /\ (is_kw k = true -> is_conjunction k = true) /\ upper (text k) <> "THEN" /\ contains "WITHIN" (upper (text k)) = false.

Lemma resolve_mode_plain k m : is_kw k = true -> plain k -> resolve_mode k m = m.
Proof.
  intros K [_ P]. specialize (P K). unfold switches in P. unfold resolve_mode, mem. cbn [existsb].
  repeat match goal with |- context [String.eqb ?a ?b] => let Q := fresh in destruct (String.eqb a b) eqn:Q; [exfalso; apply P; apply String.eqb_eq in Q; rewrite Q; simpl; tauto|clear Q] end.
  reflexivity.
Qed.

Section Parsing.
  Variable int_of : string -> res Z.
  Notation step := (step int_of).
  Notation steps := (steps int_of).
  Notation parse := (parse int_of).

  Lemma steps_app a : forall b s, steps (a ++ b) s = (s' <- steps a s ;; steps b s').
  Proof.
    induction a as [|k a IH]; intros b s; [reflexivity|]. cbn [app Mql_Model.steps]. destruct (step k s) as [s'|e]; cbn [bind]; [apply IH|reflexivity].
  Qed.
  Lemma blank_funnel k : blank k -> is_funnel k = false /\ is_kw k = false /\ is_id k = false.
  Proof. intros (t & -> & E). unfold is_funnel. cbn [text]. rewrite E. auto. Qed.
  Lemma lists_not k l : lists k l -> is_kw k || is_funnel k = false.
  Proof.
    intros [k' B|t F|ids t F]; [destruct (blank_funnel _ B) as (-> & -> & _); reflexivity|simpl; exact F|simpl; exact F].
  Qed.
  Lemma add_all_metrics ids : forall ms ds w h o sp stp f wi,
    add_all ids (St MMetrics ms ds w h o sp stp f wi) = Ok (St MMetrics (ms ++ ids) ds w h o sp stp f wi).
  Proof. induction ids as [|i ids IH]; intros; cbn; [rewrite app_nil_r; reflexivity|]. rewrite IH, <- app_assoc. reflexivity. Qed.
  Lemma add_all_dims ids : forall ms ds w h o sp stp f wi,
    add_all ids (St MDims ms ds w h o sp stp f wi) = Ok (St MDims ms (ds ++ ids) w h o sp stp f wi).
  Proof. induction ids as [|i ids IH]; intros; cbn; [rewrite app_nil_r; reflexivity|]. rewrite IH, <- app_assoc. reflexivity. Qed.
  Lemma steps_metrics ks ls : Forall2 lists ks ls -> forall ms ds w h o sp stp f wi,
    steps ks (St MMetrics ms ds w h o sp stp f wi) = Ok (St MMetrics (ms ++ List.concat ls) ds w h o sp stp f wi).
  Proof.
    induction 1 as [|k l ks ls L H IH]; intros; cbn [Mql_Model.steps List.concat]; [rewrite app_nil_r; reflexivity|].
    assert (E : step k (St MMetrics ms ds w h o sp stp f wi) = Ok (St MMetrics (ms ++ l) ds w h o sp stp f wi)).
    { unfold Mql_Model.step. cbn [s_mode]. rewrite (lists_not _ _ L). cbn [andb]. unfold funnel, rest. cbn [s_mode].
      destruct L as [k B|t F|ids t F]; cbn [names].
      - destruct B as (t & -> & _). cbn. rewrite app_nil_r. reflexivity.
      - cbn [is_id]. rewrite F. reflexivity.
      - cbn [is_id]. apply add_all_metrics. }
    rewrite E. cbn [bind]. rewrite IH, <- app_assoc. reflexivity.
  Qed.
  Lemma steps_dims ks ls : Forall2 lists ks ls -> forall ms ds w h o sp stp f wi,
    steps ks (St MDims ms ds w h o sp stp f wi) = Ok (St MDims ms (ds ++ List.concat ls) w h o sp stp f wi).
  Proof.
    induction 1 as [|k l ks ls L H IH]; intros; cbn [Mql_Model.steps List.concat]; [rewrite app_nil_r; reflexivity|].
    assert (E : step k (St MDims ms ds w h o sp stp f wi) = Ok (St MDims ms (ds ++ l) w h o sp stp f wi)).
    { unfold Mql_Model.step. cbn [s_mode]. rewrite (lists_not _ _ L). cbn [andb]. unfold funnel, rest. cbn [s_mode].
      destruct L as [k B|t F|ids t F]; cbn [names].
      - destruct B as (t & -> & _). cbn. rewrite app_nil_r. reflexivity.
      - cbn [is_id]. rewrite F. reflexivity.
      - cbn [is_id]. apply add_all_dims. }
    rewrite E. cbn [bind]. rewrite IH, <- app_assoc. reflexivity.
  Qed.
  Lemma step_plain_having k ms ds w h o sp stp f wi : plain k ->
    step k (St MHaving ms ds w h o sp stp f wi) = Ok (St MHaving ms ds w (h ++ [text k]) o sp stp f wi).
  Proof.
    intros P. unfold Mql_Model.step. cbn [s_mode]. destruct P as [P1 P2]. rewrite P1, orb_false_r.
    destruct (is_kw k && negb (is_conjunction k)) eqn:E; [|reflexivity].
    apply andb_prop in E. destruct E as [E _]. rewrite (resolve_mode_plain k MHaving E) by (split; assumption). reflexivity.
  Qed.
  Lemma step_plain_order k ms ds w h o sp stp f wi : plain k ->
    step k (St MOrder ms ds w h o sp stp f wi) = Ok (St MOrder ms ds w h (o ++ [text k]) sp stp f wi).
  Proof.
    intros P. unfold Mql_Model.step. cbn [s_mode]. destruct P as [P1 P2]. rewrite P1, orb_false_r.
    destruct (is_kw k && negb (is_conjunction k)) eqn:E; [|reflexivity].
    apply andb_prop in E. destruct E as [E _]. rewrite (resolve_mode_plain k MOrder E) by (split; assumption). reflexivity.
  Qed.
  Lemma steps_having ks : Forall plain ks -> forall ms ds w h o sp stp f wi,
    steps ks (St MHaving ms ds w h o sp stp f wi) = Ok (St MHaving ms ds w (h ++ map text ks) o sp stp f wi).
  Proof.
    induction 1 as [|k ks P H IH]; intros; cbn [Mql_Model.steps map]; [rewrite app_nil_r; reflexivity|].
    rewrite step_plain_having by exact P. cbn [bind]. rewrite IH, <- app_assoc. reflexivity.
  Qed.
  Lemma steps_order ks : Forall plain ks -> forall ms ds w h o sp stp f wi,
    steps ks (St MOrder ms ds w h o sp stp f wi) = Ok (St MOrder ms ds w h (o ++ map text ks) sp stp f wi).
  Proof.
    induction 1 as [|k ks P H IH]; intros; cbn [Mql_Model.steps map]; [rewrite app_nil_r; reflexivity|].
    rewrite step_plain_order by exact P. cbn [bind]. rewrite IH, <- app_assoc. reflexivity.
  Qed.

  (** An optional part: absent, or its keyword and its tokens *)
  Definition part (word : string) (b : option (string * list mtok)) : list mtok :=
    match b with None => [] | Some (k, ks) => TKw k :: ks end.
  Definition is_part (word : string) (P : list mtok -> Prop) (b : option (string * list mtok)) : Prop :=
    match b with None => True | Some (k, ks) => upper k = word /\ P ks end.
  Definition where_part (b : option (list string)) : list mtok := match b with None => [] | Some ps => [TWhere ps] end.
  Definition not_funnel_word (b : option (list string)) : Prop :=
    match b with None => True | Some ps => is_funnel (TWhere ps) = false end.
  Definition said (b : option (string * list mtok)) : option string :=
    match b with None | Some (_, []) => None | Some (_, ks) => Some (strip (concat_text (map text ks))) end.
  Definition where_said (b : option (list string)) : option string :=
    match b with Some (_ :: x :: r) => Some (strip (concat_text (x :: r))) | _ => None end.

  Lemma conj_kw w k : upper k = w -> In w ["BY"; "HAVING"; "ORDER BY"; "FOR"; "FUNNEL"; "THEN"; "WITHIN"] -> forall b, is_conjunction (TKw k) = b -> b = false.
  Proof.
    intros E I b <-. unfold is_conjunction. cbn [text]. apply (proj1 (not_true_iff_false _)). intros M. apply mem_In in M.
    assert (U : forall s, upper (strip s) = strip (upper s)).
    { clear. assert (SP : forall c, is_space (upper_ascii c) = is_space c) by (intros [[] [] [] [] [] [] [] []]; reflexivity).
      assert (R : forall s, upper (rstrip s) = rstrip (upper s)).
      { induction s as [|c s IH]; [reflexivity|]. cbn [rstrip upper]. rewrite <- IH. destruct (rstrip s) as [|d t]; cbn [upper]; [|reflexivity].
        rewrite SP. destruct (is_space c); reflexivity. }
      intros s. unfold strip. rewrite <- R. generalize (rstrip s). clear s. intros s. induction s as [|c s IH]; [reflexivity|].
      cbn [lstrip upper]. rewrite SP. destruct (is_space c); [exact IH|reflexivity]. }
    rewrite U, E in M. clear - I M. simpl in I.
    repeat (destruct I as [<-|I]; [vm_compute in M; destruct M as [M|[M|[]]]; discriminate|]). exact I.
  Qed.

  (** A statement without a funnel is read as written. *)
  Theorem C49_parse mk ml bydims dl wh hv ob :
    Forall2 lists mk ml ->
    is_part "BY" (fun ks => Forall2 lists ks dl) bydims -> (bydims = None -> dl = []) ->
    not_funnel_word wh ->
    is_part "HAVING" (Forall plain) hv -> is_part "ORDER BY" (Forall plain) ob ->
    parse (mk ++ part "BY" bydims ++ where_part wh ++ part "HAVING" hv ++ part "ORDER BY" ob)
    = Ok (Mql (List.concat ml) (List.concat dl) (where_said wh) (said hv) (said ob) None).
  Proof.
    intros HM HD HD0 HW HH HO. unfold Mql_Model.parse, start.
    rewrite steps_app, (steps_metrics _ _ HM). cbn [bind app].
    assert (D : exists m, (m = MMetrics \/ m = MDims) /\ steps (part "BY" bydims) (St MMetrics (List.concat ml) [] [] [] [] [] None None None)
                 = Ok (St m (List.concat ml) (List.concat dl) [] [] [] [] None None None)).
    { destruct bydims as [[b ks]|]; [|rewrite (HD0 eq_refl); exists MMetrics; split; [auto|reflexivity]].
      destruct HD as [EB HD]. exists MDims. split; [auto|]. cbn [part Mql_Model.steps]. unfold Mql_Model.step. cbn [s_mode is_kw orb text].
      rewrite (conj_kw "BY" b EB ltac:(simpl; tauto) _ eq_refl). cbn [andb negb]. unfold resolve_mode. cbn [text]. rewrite EB. cbn. unfold set_mode; cbn [s_mode s_metrics s_dims s_where s_having s_order s_steps s_step s_for s_within].
      rewrite (steps_dims _ _ HD). reflexivity. }
    destruct D as (m & Hm & D). rewrite steps_app, D. cbn [bind].
    assert (W : steps (where_part wh) (St m (List.concat ml) (List.concat dl) [] [] [] [] None None None)
                = Ok (St m (List.concat ml) (List.concat dl) (match wh with Some ps => ps | None => [] end) [] [] [] None None None)).
    { destruct wh as [ps|]; [|reflexivity]. cbn [where_part Mql_Model.steps not_funnel_word] in *. unfold Mql_Model.step. rewrite HW. cbn [is_kw orb andb].
      destruct Hm as [-> | ->]; reflexivity. }
    rewrite steps_app, W. cbn [bind].
    assert (HV : exists m', steps (part "HAVING" hv) (St m (List.concat ml) (List.concat dl) (match wh with Some ps => ps | None => [] end) [] [] [] None None None)
                = Ok (St m' (List.concat ml) (List.concat dl) (match wh with Some ps => ps | None => [] end) (match hv with Some (k, ks) => k :: map text ks | None => [] end) [] [] None None None)
                /\ (m' = m \/ m' = MHaving)).
    { destruct hv as [[b ks]|]; [|exists m; split; [reflexivity|auto]]. destruct HH as [EB HH]. exists MHaving. split; [|auto].
      cbn [part Mql_Model.steps]. unfold Mql_Model.step. cbn [s_mode is_kw is_ws orb text].
      rewrite (conj_kw "HAVING" b EB ltac:(simpl; tauto) _ eq_refl). cbn [andb negb]. unfold resolve_mode. cbn [text]. rewrite EB.
      destruct Hm as [-> | ->]; cbn; unfold add_having, add_order, set_steps, set_step, set_mode; cbn [s_mode s_metrics s_dims s_where s_having s_order s_steps s_step s_for s_within]; rewrite (steps_having _ HH); reflexivity. }
    destruct HV as (m' & HV & Hm'). rewrite steps_app, HV. cbn [bind].
    assert (OB : exists m2, steps (part "ORDER BY" ob) (St m' (List.concat ml) (List.concat dl) (match wh with Some ps => ps | None => [] end) (match hv with Some (k, ks) => k :: map text ks | None => [] end) [] [] None None None)
                = Ok (St m2 (List.concat ml) (List.concat dl) (match wh with Some ps => ps | None => [] end) (match hv with Some (k, ks) => k :: map text ks | None => [] end) (match ob with Some (k, ks) => k :: map text ks | None => [] end) [] None None None)).
    { destruct ob as [[b ks]|]; [|exists m'; reflexivity]. destruct HO as [EB HO]. exists MOrder.
      cbn [part Mql_Model.steps]. unfold Mql_Model.step. cbn [s_mode is_kw is_ws orb text].
      rewrite (conj_kw "ORDER BY" b EB ltac:(simpl; tauto) _ eq_refl). cbn [andb negb]. unfold resolve_mode. cbn [text]. rewrite EB.
      destruct Hm' as [-> | ->]; [destruct Hm as [-> | ->]|]; cbn; unfold add_having, add_order, set_steps, set_step, set_mode; cbn [s_mode s_metrics s_dims s_where s_having s_order s_steps s_step s_for s_within]; rewrite (steps_order _ HO); reflexivity. }
    destruct OB as (m2 & OB). rewrite OB. cbn [bind s_metrics s_dims s_where s_having s_order s_within s_steps s_for].
    f_equal. f_equal.
    - destruct wh as [[|x [|y ps]]|]; reflexivity.
    - destruct hv as [[k [|x ks]]|]; reflexivity.
    - destruct ob as [[k [|x ks]]|]; reflexivity.
  Qed.

  (** ** Funnels *)
  Lemma step_condition k ms ds w h o sp p f wi : condition_tok k ->
    step k (St MFunnel ms ds w h o sp (Some p) f wi) = Ok (St MFunnel ms ds w h o sp (Some (p ++ [text k])) f wi).
  Proof.
    intros (F & K & T & W). unfold Mql_Model.step. cbn [s_mode]. rewrite F, orb_false_r.
    assert (E : is_kw k && negb (is_conjunction k) = false) by (destruct (is_kw k); [rewrite (K eq_refl)|]; reflexivity).
    rewrite E. unfold funnel. cbn [s_mode s_step]. apply String.eqb_neq in T. rewrite T, W. reflexivity.
  Qed.
  Lemma steps_condition ks : Forall condition_tok ks -> forall ms ds w h o sp p f wi,
    steps ks (St MFunnel ms ds w h o sp (Some p) f wi) = Ok (St MFunnel ms ds w h o sp (Some (p ++ map text ks)) f wi).
  Proof.
    induction 1 as [|k ks C H IH]; intros; cbn [Mql_Model.steps map]; [rewrite app_nil_r; reflexivity|].
    rewrite step_condition by exact C. cbn [bind]. rewrite IH, <- app_assoc. reflexivity.
  Qed.
  (** The steps before the last, each followed by THEN *)
  Definition thens (l : list (list mtok * string)) : list mtok := flat_map (fun p => fst p ++ [TKw (snd p)]) l.
  Lemma steps_thens l : (forall p, In p l -> Forall condition_tok (fst p) /\ upper (snd p) = "THEN") -> forall ms ds w h o sp f wi,
    steps (thens l) (St MFunnel ms ds w h o sp (Some []) f wi) = Ok (St MFunnel ms ds w h o (sp ++ map (fun p => map text (fst p)) l) (Some []) f wi).
  Proof.
    induction l as [|[ks t] l IH]; intros H ms ds w h o sp f wi; cbn [map]; [cbn; rewrite app_nil_r; reflexivity|].
    destruct (H _ (or_introl eq_refl)) as [C T]. cbn [fst snd] in *.
    assert (TE : thens ((ks, t) :: l) = ks ++ TKw t :: thens l) by (unfold thens; cbn [flat_map fst snd]; rewrite <- app_assoc; reflexivity).
    rewrite TE. clear TE. specialize (IH (fun p I => H p (or_intror I))). revert IH. generalize (thens l). intros tl IH. rewrite steps_app, (steps_condition _ C). cbn [bind app].
    cbn [Mql_Model.steps]. unfold Mql_Model.step at 1. cbn [s_mode is_kw orb is_ws].
    rewrite (conj_kw "THEN" t T ltac:(simpl; tauto) _ eq_refl). cbn [andb negb]. unfold resolve_mode. cbn [text]. rewrite T. cbn. rewrite ?T. cbn. unfold add_having, add_order, set_steps, set_step, set_mode; cbn [s_mode s_metrics s_dims s_where s_having s_order s_steps s_step s_for s_within].
    rewrite IH. rewrite <- app_assoc. reflexivity.
  Qed.

  (** metrics FOR view FUNNEL step THEN ... step WITHIN n unit, then the rest as before.  The token that holds
      WITHIN is not a keyword (its text is the end of the last step); the view token is followed by a FUNNEL
      token. *)
  Definition funnel_part (fo : string) (v : mtok) (fu : mtok) (l : list (list mtok * string)) (lastk : list mtok) (wi : mtok) (bl : list mtok) (n : string) : list mtok :=
    TKw fo :: TWs " " :: v :: fu :: thens l ++ lastk ++ [wi] ++ bl ++ [TId n].
  Theorem C49_parse_funnel mk ml fo v fu l lastk wi bl n w bydims dl wh :
    Forall2 lists mk ml ->
    upper fo = "FOR" -> is_ws v = false -> is_funnel fu = true -> is_conjunction fu = false -> upper (text fu) = "FUNNEL" ->
    (forall p, In p l -> Forall condition_tok (fst p) /\ upper (snd p) = "THEN") ->
    Forall condition_tok lastk -> is_kw wi = false -> is_funnel wi = false -> upper (text wi) <> "THEN" -> contains "WITHIN" (upper (text wi)) = true ->
    Forall blank bl -> is_funnel (TId n) = false -> read_within int_of n = Ok w ->
    is_part "BY" (fun ks => Forall2 lists ks dl) bydims -> (bydims = None -> dl = []) -> not_funnel_word wh ->
    parse (mk ++ funnel_part fo v fu l lastk wi bl n ++ part "BY" bydims ++ where_part wh)
    = Ok (Mql (List.concat ml) (List.concat dl) (where_said wh) None None
              (Some (map (fun p => strip (concat_text (map text (fst p)))) l ++ [strip (concat_text (map text lastk ++ [strip (before_within (text wi))]))],
                     w, match strip (lower (hd "" (split_char " "%char (text v)))) with "" => None | x => Some x end))).
  Proof.
    intros HM EF HV HFU HFC EFU HT HL W1 W2 W3 W4 HB HN RW HD HD0 HW. unfold Mql_Model.parse, start.
    rewrite steps_app, (steps_metrics _ _ HM). cbn [bind app].
    assert (FP : steps (funnel_part fo v fu l lastk wi bl n) (St MMetrics (List.concat ml) [] [] [] [] [] None None None)
       = Ok (St MMetrics (List.concat ml) [] [] [] [] (map (fun p => map text (fst p)) l ++ [map text lastk ++ [strip (before_within (text wi))]])
               (Some (map text lastk ++ [strip (before_within (text wi))])) (Some (strip (lower (hd "" (split_char " "%char (text v)))))) (Some w))).
    { unfold funnel_part. set (tail := thens l ++ _).
      assert (E1 : step (TKw fo) (St MMetrics (List.concat ml) [] [] [] [] [] None None None) = Ok (St MFor (List.concat ml) [] [] [] [] [] None None None)).
      { unfold Mql_Model.step. cbn [s_mode is_kw is_ws orb]. rewrite (conj_kw "FOR" fo EF ltac:(simpl; tauto) _ eq_refl). cbn [andb negb].
        unfold resolve_mode. cbn [text]. rewrite EF. reflexivity. }
      assert (E2 : step (TWs " ") (St MFor (List.concat ml) [] [] [] [] [] None None None) = Ok (St MFor (List.concat ml) [] [] [] [] [] None None None)) by reflexivity.
      assert (E3 : step v (St MFor (List.concat ml) [] [] [] [] [] None None None) = Ok (St MFunnel (List.concat ml) [] [] [] [] [] (Some []) (Some (strip (lower (hd "" (split_char " "%char (text v)))))) None)).
      { unfold Mql_Model.step. cbn [s_mode]. rewrite HV. reflexivity. }
      assert (E4 : forall f0, step fu (St MFunnel (List.concat ml) [] [] [] [] [] (Some []) f0 None) = Ok (St MFunnel (List.concat ml) [] [] [] [] [] (Some []) f0 None)).
      { intros f0. unfold Mql_Model.step. cbn [s_mode]. rewrite HFU, orb_true_r, HFC. cbn [andb negb]. unfold resolve_mode. rewrite EFU. reflexivity. }
      cbn [Mql_Model.steps]. rewrite E1. cbn [bind]. rewrite E2. cbn [bind]. rewrite E3. cbn [bind]. rewrite E4. cbn [bind]. unfold tail. clear tail E1 E2 E3 E4.
      rewrite steps_app, (steps_thens _ HT). cbn [bind app]. rewrite steps_app, (steps_condition _ HL). cbn [bind app Mql_Model.steps].
      unfold Mql_Model.step at 1. cbn [s_mode]. rewrite W1, W2. cbn [orb andb]. unfold funnel. cbn [s_mode s_step].
      apply String.eqb_neq in W3. rewrite W3, W4. cbn [bind]. unfold set_step, set_mode, set_steps. cbn [s_mode s_metrics s_dims s_where s_having s_order s_steps s_step s_for s_within].
      rewrite steps_app.
      assert (BL : forall s, s_mode s = MWithin -> steps bl s = Ok s).
      { clear - HB. induction HB as [|k bl B H IH]; intros s E; [reflexivity|]. cbn [Mql_Model.steps]. unfold Mql_Model.step.
        destruct (blank_funnel _ B) as (F1 & F2 & F3). rewrite E, F1, F2. cbn [orb andb]. unfold funnel, rest. rewrite E, F3. destruct B as (t & -> & _). cbn [names bind]. apply IH. exact E. }
      rewrite BL by reflexivity. cbn [bind Mql_Model.steps]. unfold Mql_Model.step. cbn [s_mode is_kw]. rewrite HN. cbn [orb andb].
      unfold funnel, rest. cbn [s_mode is_id text]. rewrite RW. cbn [bind]. unfold set_mode, set_within. reflexivity. }
    rewrite steps_app, FP. cbn [bind].
    set (s0 := St MMetrics _ _ _ _ _ _ _ _ _).
    assert (D : exists m, (m = MMetrics \/ m = MDims) /\ steps (part "BY" bydims) s0
       = Ok (St m (List.concat ml) (List.concat dl) [] [] [] (s_steps s0) (s_step s0) (s_for s0) (s_within s0))).
    { destruct bydims as [[b ks]|]; [|rewrite (HD0 eq_refl); exists MMetrics; split; [auto|reflexivity]].
      destruct HD as [EB HD]. exists MDims. split; [auto|]. cbn [part Mql_Model.steps]. unfold Mql_Model.step. cbn [s_mode is_kw orb text s0].
      rewrite (conj_kw "BY" b EB ltac:(simpl; tauto) _ eq_refl). cbn [andb negb]. unfold resolve_mode. cbn [text]. rewrite EB. cbn [String.eqb]. cbn. unfold set_mode; cbn [s_mode s_metrics s_dims s_where s_having s_order s_steps s_step s_for s_within].
      rewrite (steps_dims _ _ HD). reflexivity. }
    destruct D as (m & Hm & D). rewrite steps_app, D. cbn [bind].
    assert (W : forall sp stp f wi0, steps (where_part wh) (St m (List.concat ml) (List.concat dl) [] [] [] sp stp f wi0)
                = Ok (St m (List.concat ml) (List.concat dl) (match wh with Some ps => ps | None => [] end) [] [] sp stp f wi0)).
    { intros. destruct wh as [ps|]; [|reflexivity]. cbn [where_part Mql_Model.steps not_funnel_word] in *. unfold Mql_Model.step. rewrite HW. cbn [is_kw orb andb].
      destruct Hm as [-> | ->]; reflexivity. }
    rewrite W. cbn [bind s_metrics s_dims s_where s_having s_order s_within s_steps s_for s0 s_step]. f_equal. f_equal.
    - destruct wh as [[|x [|y ps]]|]; reflexivity.
    - rewrite map_app, map_map. cbn [map].
      destruct (map (fun p => map text (fst p)) l ++ _) eqn:E; [destruct l; discriminate|]. f_equal.
  Qed.
End Parsing.
Print Assumptions C49_parse.
Print Assumptions C49_parse_funnel.

(** ** The text *)
(** [t] occurs in [a ++ t ++ b] only there *)
Definition only_here (a t b : string) : Prop := forall a' b', (a ++ t ++ b = a' ++ t ++ b')%string -> a' = a.
Lemma replace_only t new b : t <> "" -> forall a, only_here a t b -> replace t new (a ++ t ++ b) = (a ++ new ++ b)%string.
Proof.
  intros NE. induction a as [|c a IH]; intros U.
  - change ("" ++ t ++ b)%string with (t ++ b)%string. rewrite replace_head by exact NE. change ("" ++ new ++ b)%string with (new ++ b)%string. f_equal.
    apply replace_none. apply (proj1 (not_true_iff_false _)). intros C. apply contains_spec in C. destruct C as (x & y & ->).
    specialize (U (t ++ x)%string y). rewrite !append_assoc in U. specialize (U eq_refl). destruct t; [congruence|discriminate].
  - change (String c a ++ t ++ b)%string with (String c (a ++ t ++ b)). rewrite replace_skip; [|exact NE|].
    + rewrite IH; [reflexivity|]. intros a' b' E. specialize (U (String c a') b'). cbn [append] in U. rewrite E in U. specialize (U eq_refl). congruence.
    + destruct (strip_prefix t (String c (a ++ t ++ b))) as [r|] eqn:E; [|reflexivity]. apply strip_prefix_some in E.
      specialize (U "" r). cbn [append] in U. rewrite E in U. specialize (U eq_refl). discriminate.
Qed.

Section Text.
  Variable int_of : string -> res Z.
  Variable answer : mql -> res string.
  Notation resolve := (resolve int_of answer).
  Notation convert_all := (convert_all int_of answer).

  (** What a top level token becomes: an MQL call (alone, or at the beginning of an aliased expression) is
      replaced by its query in parentheses; anything else stays. *)
  Inductive becomes (sql : string) : stok -> string -> Prop :=
  | becomes_call f t args m q : upper f = "MQL" -> t <> sql -> t <> "" -> parse int_of args = Ok m -> answer m = Ok q ->
      becomes sql (SFun (FFun f t args)) ("(" ++ q ++ ")")
  | becomes_alias f t args m q r : upper f = "MQL" -> t <> sql -> t <> "" -> parse int_of args = Ok m -> answer m = Ok q ->
      upper (t ++ r) <> "MQL" -> contains "MQL(" (upper (t ++ r)) = true ->
      becomes sql (SId (t ++ r) (FFun f t args)) (("(" ++ q ++ ")") ++ r)
  | stays_call f t args : upper f <> "MQL" -> becomes sql (SFun (FFun f t args)) t
  | stays_id t f : upper t <> "MQL" -> contains "MQL(" (upper t) = false -> becomes sql (SId t f) t
  | stays_other t : becomes sql (SOther t) t.
  (** the part of a token that is replaced *)
  Definition call_text (k : stok) : string := match k with SFun f | SId _ f => ftext f | SOther _ => "" end.
  Definition is_call (k : stok) : Prop :=
    match k with
    | SFun (FFun f _ _) => upper f = "MQL"
    | SId t (FFun f _ _) => upper f = "MQL" /\ contains "MQL(" (upper t) = true
    | _ => False
    end.
  Definition after_call (k : stok) : string :=
    match k with SId t f => match strip_prefix (ftext f) t with Some r => r | None => "" end | _ => "" end.
  (** Every call occurs once in the text as it stands when its turn comes: the tokens before it already
      converted ([pre]), the others as they were. *)
  Inductive separate (sql : string) : string -> list stok -> list string -> Prop :=
  | sep_nil pre : separate sql pre [] []
  | sep_cons pre k ks o os : (is_call k -> only_here pre (call_text k) (after_call k ++ concat_text (map stext ks))) ->
      separate sql (pre ++ o) ks os -> separate sql pre (k :: ks) (o :: os).

  Lemma paren_ne q : exists c r, ("(" ++ q ++ ")")%string = String c r.
  Proof. exists "("%char, (q ++ ")")%string. reflexivity. Qed.
  Lemma convert_becomes sql ks : forall pre os, Forall2 (becomes sql) ks os -> separate sql pre ks os ->
    convert_all sql ks (pre ++ concat_text (map stext ks)) = Ok (pre ++ concat_text os)%string.
  Proof.
    induction ks as [|k ks IH]; intros pre os B S; inversion B as [|? o ? os' Bk Bs]; subst; [reflexivity|].
    inversion S as [|? ? ? ? ? U S']; subst. cbn [Mql_Model.convert_all map concat_text fold_right]. fold (concat_text (map stext ks)). fold (concat_text os').
    assert (E : convert_one int_of answer sql k (pre ++ stext k ++ concat_text (map stext ks)) = Ok (pre ++ o ++ concat_text (map stext ks))%string).
    { destruct Bk as [f t args m q E1 E2 E3 E4 E5|f t args m q r E1 E2 E3 E4 E5 E6 E7|f t args E1|t f E1 E2|t]; cbn [convert_one stext ftext].
      - unfold swap, Mql_Model.resolve. rewrite E1. cbn [String.eqb Ascii.eqb Bool.eqb]. rewrite E4. cbn [bind]. rewrite E5. cbn [bind].
        apply String.eqb_neq in E2. rewrite E2. change (match ("(" ++ q ++ ")")%string with "" => _ | _ => replace (ftext (FFun f t args)) ("(" ++ q ++ ")") (pre ++ t ++ concat_text (map stext ks)) end) with (replace t ("(" ++ q ++ ")") (pre ++ t ++ concat_text (map stext ks))).
        f_equal. apply replace_only; [exact E3|]. apply U. exact E1.
      - apply String.eqb_neq in E6. rewrite E6, E7. unfold swap, Mql_Model.resolve. rewrite E1. cbn [String.eqb Ascii.eqb Bool.eqb]. rewrite E4. cbn [bind]. rewrite E5. cbn [bind].
        apply String.eqb_neq in E2. rewrite E2. change (match ("(" ++ q ++ ")")%string with "" => _ | _ => replace (ftext (FFun f t args)) ("(" ++ q ++ ")") (pre ++ (t ++ r) ++ concat_text (map stext ks)) end) with (replace t ("(" ++ q ++ ")") (pre ++ (t ++ r) ++ concat_text (map stext ks))).
        f_equal. rewrite append_assoc. rewrite replace_only; [rewrite !append_assoc; reflexivity|exact E3|].
        specialize (U (conj E1 E7)). cbn [call_text ftext after_call] in U. rewrite strip_prefix_app in U. exact U.
      - unfold swap, Mql_Model.resolve. apply String.eqb_neq in E1. rewrite E1. reflexivity.
      - apply String.eqb_neq in E1. rewrite E1, E2. reflexivity.
      - reflexivity. }
    rewrite E. cbn [bind]. rewrite <- append_assoc. rewrite (IH _ _ Bs S'). rewrite append_assoc. reflexivity.
  Qed.

  Lemma last_char_none s : last_char s = None -> s = "".
  Proof. induction s as [|c s IH]; [reflexivity|]. destruct s; [discriminate|]. intros H. specialize (IH H). discriminate. Qed.

  (** The tokens make up the text; every MQL call is replaced, the rest is unchanged, and a semicolon is added
      if there is none. *)
  Theorem C49_text sql ks os : concat_text (map stext ks) = sql -> Forall2 (becomes sql) ks os -> separate sql "" ks os ->
    concat_text os <> "" ->
    exists e, get_query int_of answer sql ks = Ok (concat_text os ++ e)%string /\ ends_semicolon (concat_text os ++ e) = true
              /\ (e = "" \/ e = ";" /\ ends_semicolon (concat_text os) = false).
  Proof.
    intros EQ B S NE. unfold get_query. pose proof (convert_becomes sql ks "" os B S) as C. cbn [append] in C. rewrite EQ in C. rewrite C. cbn [bind].
    destruct (concat_text os) as [|c s] eqn:Q; [congruence|]. destruct (ends_semicolon (String c s)) eqn:SC.
    - exists "". rewrite append_nil_r. auto.
    - exists ";". split; [reflexivity|]. split; [|auto]. clear. unfold ends_semicolon.
      assert (L : forall t, last_char (t ++ ";") = Some ";"%char).
      { induction t as [|d t IH]; [reflexivity|]. cbn [append last_char]. destruct (t ++ ";")%string eqn:Z; [destruct t; discriminate|]. exact IH. }
      rewrite L. reflexivity.
  Qed.
  (** A text that is just one call becomes the query itself. *)
  Theorem C49_lone_call f t args m q : upper f = "MQL" -> t <> "" -> parse int_of args = Ok m -> answer m = Ok q -> q <> "" ->
    get_query int_of answer t [SFun (FFun f t args)] = Ok (if ends_semicolon q then q else (q ++ ";")%string).
  Proof.
    intros E1 E2 E3 E4 NQ. unfold get_query. cbn [Mql_Model.convert_all convert_one]. unfold swap, Mql_Model.resolve. rewrite E1. cbn [String.eqb Ascii.eqb Bool.eqb].
    rewrite E3. cbn [bind]. rewrite E4. cbn [bind]. rewrite String.eqb_refl. destruct q as [|c q]; [congruence|]. cbn [ftext].
    pose proof (replace_only t (String c q) "" E2 "") as R. cbn [append] in R. rewrite append_nil_r in R. rewrite R.
    - cbn [bind]. rewrite append_nil_r. reflexivity.
    - intros a' b' E. cbn [append] in E. rewrite append_nil_r in E. apply (f_equal String.length) in E. rewrite !append_length in E. destruct a'; [reflexivity|]. cbn [String.length] in E. lia.
  Qed.
End Text.
Print Assumptions C49_text.
Print Assumptions C49_lone_call.

(** ** Concrete cases *)
Definition ex_int (s : string) : res Z := if String.eqb s "3" then Ok 3%Z else Err ValueError.
Definition ex_answer (m : mql) : res string := Ok ("SELECT " ++ concat_text (m_metrics m))%string.
Example parse_example :
  parse ex_int [TId "total"; TWs " "; TKw "by"; TWs " "; TIds ["region"; "channel"] "region, channel"; TWs " "; TWhere ["where"; " "; "x = 1"; " "];
                TKw "HAVING"; TWs " "; TOther "total > 5"; TWs " "; TKw "order by"; TWs " "; TId "total desc"]
  = Ok (Mql ["total"] ["region"; "channel"] (Some "x = 1") (Some "total > 5") (Some "total desc") None).
Proof. reflexivity. Qed.
Example parse_example_hypotheses :
  Forall2 lists [TId "total"; TWs " "] [["total"]; []] /\ is_part "BY" (fun ks => Forall2 lists ks [[]; ["region"; "channel"]; []]) (Some ("by", [TWs " "; TIds ["region"; "channel"] "region, channel"; TWs " "]))
  /\ not_funnel_word (Some ["where"; " "; "x = 1"; " "]) /\ is_part "HAVING" (Forall plain) (Some ("HAVING", [TWs " "; TOther "total > 5"; TWs " "]))
  /\ is_part "ORDER BY" (Forall plain) (Some ("order by", [TWs " "; TId "total desc"])).
Proof.
  assert (B : lists (TWs " ") []) by (apply lists_blank; exists " "; split; reflexivity).
  split; [constructor; [apply lists_one; reflexivity|constructor; [exact B|constructor]]|].
  split; [split; [reflexivity|]; repeat (constructor; [first [exact B|apply lists_many; reflexivity]|]); constructor|]. split; [reflexivity|].
  split; (split; [reflexivity|]); repeat (constructor; [split; [reflexivity|discriminate]|]); constructor.
Qed.
Example funnel_example :
  parse ex_int [TId "n_users"; TWs " "; TKw "FOR"; TWs " "; TId "Events"; TOther "FUNNEL"; TWs " "; TOther "event = 'a'"; TWs " "; TKw "THEN"; TWs " ";
                TOther "event = 'b' WITHIN"; TWs " "; TId "3 Days"; TWs " "; TKw "BY"; TWs " "; TId "region"]
  = Ok (Mql ["n_users"] ["region"] None None None (Some (["event = 'a'"; "event = 'b'"], Within 3 "days", Some "events"))).
Proof. reflexivity. Qed.
Definition ex_sql : string := "SELECT * FROM MQL(total by x) as t".
Definition ex_toks : list stok := [SOther "SELECT * FROM "; SId "MQL(total by x) as t" (FFun "MQL" "MQL(total by x)" [TId "total"; TWs " "; TKw "by"; TWs " "; TId "x"])].
Example text_example : get_query ex_int ex_answer ex_sql ex_toks = Ok "SELECT * FROM (SELECT total) as t;".
Proof. vm_compute. reflexivity. Qed.
Example text_example_hypotheses :
  concat_text (map stext ex_toks) = ex_sql /\ Forall2 (becomes ex_int ex_answer ex_sql) ex_toks ["SELECT * FROM "; "(SELECT total) as t"]
  /\ separate ex_sql "" ex_toks ["SELECT * FROM "; "(SELECT total) as t"].
Proof.
  split; [reflexivity|]. split.
  - constructor; [apply stays_other|]. constructor; [|constructor].
    apply (becomes_alias ex_int ex_answer ex_sql "MQL" "MQL(total by x)" _ (Mql ["total"] ["x"] None None None None) "SELECT total" " as t"); try reflexivity; discriminate.
  - constructor; [intros []|]. constructor; [|constructor]. intros _ a' b' E. cbn in E.
    repeat (destruct a' as [|? a']; cbn [append] in E; [first [reflexivity|discriminate E|exfalso; congruence]|first [discriminate E|injection E as <- E]]).
Qed.

(** ** What is false *)
(** A call inside a sub select is left as it is, without an error. *)
Theorem C49_nested_call_refuted : exists sql ks,
  concat_text (map stext ks) = sql /\ contains "MQL(total)" sql = true
  /\ get_query ex_int ex_answer sql ks = Ok (sql ++ ";")%string.
Proof.
  exists "SELECT * FROM (SELECT * FROM MQL(total)) as t", [SOther "SELECT * FROM "; SId "(SELECT * FROM MQL(total)) as t" (FGroup "(" "(SELECT * FROM MQL(total))")].
  repeat split.
Qed.
(** Text that merely looks like the call (a string constant) is replaced as well. *)
Theorem C49_string_constant_refuted : exists sql ks,
  concat_text (map stext ks) = sql /\ get_query ex_int ex_answer sql ks = Ok "SELECT '(SELECT total)' FROM (SELECT total) as t;".
Proof.
  exists "SELECT 'MQL(total)' FROM MQL(total) as t",
         [SOther "SELECT "; SOther "'MQL(total)'"; SOther " FROM "; SId "MQL(total) as t" (FFun "MQL" "MQL(total)" [TId "total"])].
  split; [reflexivity|]. vm_compute. reflexivity.
Qed.
(** A metric whose name is a keyword to the tokenizer (source, say) is dropped, although a dimension of that
    name is kept. *)
Theorem C49_keyword_metric_refuted :
  parse ex_int [TId "total"; TOther ","; TKw "source"] = Ok (Mql ["total"] [] None None None None)
  /\ parse ex_int [TId "total"; TWs " "; TKw "by"; TWs " "; TKw "source"] = Ok (Mql ["total"] ["source"] None None None None).
Proof. split; reflexivity. Qed.
(** ORDER BY with two blanks is not recognised: the ordering becomes a dimension. *)
Theorem C49_order_by_blanks_refuted :
  parse ex_int [TId "total"; TWs " "; TKw "by"; TWs " "; TId "region"; TWs " "; TKw "order  by"; TWs " "; TId "total"]
  = Ok (Mql ["total"] ["region"; "total"] None None None None).
Proof. reflexivity. Qed.
(** A keyword inside a funnel condition drops what stands before it. *)
Theorem C49_funnel_keyword_refuted :
  parse ex_int [TId "n"; TWs " "; TKw "FOR"; TWs " "; TId "events"; TWs " "; TOther "FUNNEL"; TWs " "; TId "event"; TWs " "; TKw "IN"; TWs " "; TOther "('a','b')"; TWs " "; TKw "THEN"; TWs " ";
                TOther "event = 'c' WITHIN"; TWs " "; TId "3 days"]
  = Ok (Mql ["n"] [] None None None (Some (["('a','b')"; "event = 'c'"], Within 3 "days", Some "events"))).
Proof. reflexivity. Qed.
Print Assumptions C49_nested_call_refuted.
Print Assumptions C49_string_constant_refuted.
Print Assumptions C49_keyword_metric_refuted.
Print Assumptions C49_order_by_blanks_refuted.
Print Assumptions C49_funnel_keyword_refuted.

(** ** What is kept and what is refused *)
Section Refused.
  Variable int_of : string -> res Z.
  Variable answer : mql -> res string.

  (** Within a step of a funnel AND and OR, in any letter case, are part of its condition, as is everything
      that is not a keyword; any other keyword empties the condition read so far. *)
  Theorem C49_funnel_word k s p : s_mode s = MFunnel -> s_step s = Some p ->
    upper (text k) <> "THEN" -> contains "WITHIN" (upper (text k)) = false ->
    ((exists t, k = TKw t) -> upper (strip (text k)) = "AND" \/ upper (strip (text k)) = "OR") ->
    strip (upper (text k)) <> "FUNNEL" ->
    step int_of k s = Ok (set_step (Some (p ++ [text k])) s).
  Proof.
    intros M S T W C F. unfold step. rewrite M.
    assert (E : (is_kw k || is_funnel k) && negb (is_conjunction k) = false).
    { unfold is_funnel. destruct (String.eqb_spec (strip (upper (text k))) "FUNNEL") as [X|_]; [contradiction|].
      rewrite orb_false_r. destruct k; try reflexivity. simpl is_kw. unfold is_conjunction.
      destruct (C (ex_intro _ t eq_refl)) as [-> | ->]; reflexivity. }
    rewrite E. unfold funnel. rewrite M, S, W. apply String.eqb_neq in T. rewrite T. destruct (is_ws k); reflexivity.
  Qed.
  Theorem C49_funnel_other_keyword t s p : s_mode s = MFunnel -> s_step s = Some p ->
    ~ In (upper t) ["BY"; "HAVING"; "ORDER BY"; "FOR"; "THEN"; "WITHIN"] ->
    ~ In (upper (strip t)) ["AND"; "OR"] ->
    step int_of (TKw t) s = Ok (set_step (Some []) s).
  Proof.
    intros M S N C. unfold step. rewrite M. cbn [is_ws is_kw orb andb].
    assert (E : is_conjunction (TKw t) = false) by (apply mem_false; exact C). rewrite E. cbn [negb].
    assert (R : resolve_mode (TKw t) MFunnel = MFunnel).
    { unfold resolve_mode. cbn [text]. 
      repeat match goal with |- context [String.eqb (upper t) ?w] => destruct (String.eqb_spec (upper t) w) as [X|_];
        [exfalso; apply N; rewrite X; simpl; tauto|] end.
      destruct (mem (upper t) ["FUNNEL"; "THEN"]); reflexivity. }
    rewrite R. cbn [set_mode s_mode].
    destruct (String.eqb_spec (upper (text (TKw t))) "THEN") as [X|_]; [exfalso; apply N; cbn [text] in X; rewrite X; simpl; tauto|].
    destruct s; simpl in *. subst. reflexivity.
  Qed.

  (** THEN where no funnel has begun. *)
  Theorem C49_then_alone t s : s_mode s <> MFor -> s_step s = None -> upper t = "THEN" -> upper (strip t) = "THEN" ->
    step int_of (TKw t) s = Err UnboundLocal.
  Proof.
    intros M S T T2. unfold step. cbn [is_ws is_kw orb andb]. unfold is_conjunction. cbn [text]. rewrite T2. cbn [mem String.eqb Ascii.eqb Bool.eqb negb].
    replace (resolve_mode (TKw t) (s_mode s)) with MFunnel by (unfold resolve_mode; cbn [text]; rewrite T; reflexivity).
    unfold set_mode at 1. unfold set_mode at 1. cbn [s_mode]. rewrite T. cbn.
    destruct (s_mode s) eqn:Q; try congruence; unfold funnel; cbn [s_mode set_mode s_step]; rewrite S; reflexivity.
  Qed.

  (** A name anywhere but among the metrics and the dimensions; the limit of a funnel that is not a number and
      a unit; the word by itself; nothing at all. *)
  Theorem C49_name_refused t s : s_mode s = MFor \/ s_mode s = MWithin \/ s_mode s = MFunnel \/ s_mode s = MHaving \/ s_mode s = MOrder ->
    add_by_mode t s = Err ParseError.
  Proof. intros H. unfold add_by_mode. destruct H as [-> |[-> |[-> |[-> | ->]]]]; reflexivity. Qed.
  Theorem C49_limit_refused t s : s_mode s = MWithin -> is_funnel (TId t) = false ->
    (forall n u, split_char " "%char (strip t) <> [n; u]) -> step int_of (TId t) s = Err ValueError.
  Proof.
    intros M F N. unfold step. rewrite M, F. cbn [is_ws is_kw orb andb]. unfold funnel. rewrite M. unfold rest. rewrite M.
    cbn [is_id]. unfold read_within. cbn [text]. destruct (split_char " "%char (strip t)) as [|n [|u [|x r]]]; try reflexivity.
    exfalso. exact (N n u eq_refl).
  Qed.
  Theorem C49_list_of_limits_refused ids t i r s : s_mode s = MWithin -> ids = i :: r -> is_funnel (TIds ids t) = false ->
    step int_of (TIds ids t) s = Err ParseError.
  Proof.
    intros M -> F. unfold step. rewrite M, F. cbn [is_ws is_kw orb andb]. unfold funnel. rewrite M. unfold rest. rewrite M.
    cbn [is_id names add_all]. rewrite (C49_name_refused i s) by auto. reflexivity.
  Qed.
  Theorem C49_word_alone sql t f pre post : upper t = "MQL" ->
    (forall k, In k pre -> exists u, k = SOther u) ->
    get_query int_of answer sql (pre ++ SId t f :: post) = Err ParseError.
  Proof.
    intros U H. unfold get_query.
    assert (A : forall l c, (forall k, In k l -> exists u, k = SOther u) ->
       convert_all int_of answer sql (l ++ SId t f :: post) c = Err ParseError).
    { induction l as [|k l IH]; intros c Hl; cbn [app convert_all].
      - unfold convert_one. rewrite U. reflexivity.
      - destruct (Hl k (or_introl eq_refl)) as (u & ->). cbn [convert_one bind]. apply IH. intros; apply Hl; right; auto. }
    rewrite (A pre sql H). reflexivity.
  Qed.
  (** A group that is no call but begins with the word, and a single token where a call is expected. *)
  Theorem C49_not_a_call sql pre k f post : (forall x, In x pre -> exists u, x = SOther u) ->
    k = SFun f \/ (exists t, k = SId t f /\ upper t <> "MQL" /\ contains "MQL(" (upper t) = true) ->
    (exists t, f = FLeaf t) \/ (exists first t, f = FGroup first t /\ upper first = "MQL") ->
    get_query int_of answer sql (pre ++ k :: post) = Err TypeError.
  Proof.
    intros H K F. unfold get_query.
    assert (R : forall c, convert_one int_of answer sql k c = Err TypeError).
    { intros c. assert (S : swap int_of answer sql f c = Err TypeError).
      { unfold swap. destruct F as [(t & ->)|(first & t & -> & U)]; cbn [resolve bind]; [reflexivity|]. rewrite U. reflexivity. }
      destruct K as [->|(t & -> & N & C)]; cbn [convert_one]; [exact S|]. apply String.eqb_neq in N. rewrite N, C. exact S. }
    assert (A : forall l c, (forall x, In x l -> exists u, x = SOther u) ->
       convert_all int_of answer sql (l ++ k :: post) c = Err TypeError).
    { induction l as [|x l IH]; intros c Hl; cbn [app convert_all].
      - rewrite R. reflexivity.
      - destruct (Hl x (or_introl eq_refl)) as (u & ->). cbn [convert_one bind]. apply IH. intros; apply Hl; right; auto. }
    rewrite (A pre sql H). reflexivity.
  Qed.
  Theorem C49_nothing ks : (forall k, In k ks -> exists u, k = SOther u) -> get_query int_of answer "" ks = Err IndexError.
  Proof.
    intros H. unfold get_query. assert (A : convert_all int_of answer "" ks "" = Ok "").
    { induction ks as [|k r IH]; [reflexivity|]. cbn [convert_all]. destruct (H k (or_introl eq_refl)) as (u & ->). cbn [convert_one bind].
      apply IH. intros; apply H; right; auto. }
    rewrite A. reflexivity.
  Qed.
End Refused.
Print Assumptions C49_funnel_word.
Print Assumptions C49_funnel_other_keyword.
Print Assumptions C49_then_alone.
Print Assumptions C49_limit_refused.
Print Assumptions C49_list_of_limits_refused.
Print Assumptions C49_word_alone.
Print Assumptions C49_not_a_call.
Print Assumptions C49_nothing.
Example C49_refused_cases :
  parse ex_int [TId "n"; TWs " "; TKw "FOR"; TWs " "; TId "events"; TWs " "; TOther "FUNNEL"; TWs " "; TOther "a = 1"; TWs " "; TKw "or"; TWs " "; TOther "a = 2"; TWs " "; TKw "THEN"; TWs " ";
                TOther "a = 3 WITHIN"; TWs " "; TId "3 days"]
  = Ok (Mql ["n"] [] None None None (Some (["a = 1 or a = 2"; "a = 3"], Within 3 "days", Some "events"))) /\
  parse ex_int [TId "n"; TWs " "; TKw "then"] = Err UnboundLocal /\
  parse ex_int [TId "n"; TWs " "; TKw "WITHIN"; TWs " "; TId "3 days more"] = Err ValueError /\
  get_query ex_int ex_answer "select mql" [SOther "select "; SId "mql" (FLeaf "mql")] = Err ParseError /\
  get_query ex_int ex_answer "" [] = Err IndexError.
Proof. repeat split; vm_compute; reflexivity. Qed.
