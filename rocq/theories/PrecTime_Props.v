(** C88 for the timeframes of a time dimension: which texts of the dimension keep their meaning inside a timeframe, and what a
    timeframe can be put inside. *)
From Coq Require Import List String Bool Arith ZArith Lia.
From Verif Require Import PyBase PyStr Prec_Model Prec_Spec Prec_Proofs Prec_Exact Prec_Props Timeframe_Model Week_Model PrecTime_Model.
Import ListNotations.
Local Open Scope string_scope.
Local Open Scope list_scope.
Local Open Scope nat_scope.

(** What a timeframe means: its functions applied to what the dimension's sql means *)
Section Meaning.
  Variable tz : string.
  Fixpoint frame_means (c : expr) (x : texpr) : expr :=
    match x with
    | XCol => c
    | XInterval e n => EBin (OAdd "+") (frame_means c e) (EAtom ("INTERVAL '" ++ Timeframe_Model.z_str n ++ "' MONTH")%string)
    | XAtZone e =>
        EBin (OMul "at time zone") (EBin (OMul "at time zone") (frame_means c e) (EAtom "'UTC'")) (EAtom ("'" ++ tz ++ "'")%string)
    | XCast e ty => ECall (named tz (XCast XCol ty)) (frame_means c e)
    | XTrunc p e => ECall (named tz (XTrunc p XCol)) (frame_means c e)
    | XDateTrunc e p => ECall (named tz (XDateTrunc XCol p)) (frame_means c e)
    | XDatetimeTrunc e p => ECall (named tz (XDatetimeTrunc XCol p)) (frame_means c e)
    | XAddDiff p e => ECall (named tz (XAddDiff p XCol)) (frame_means c e)
    | XExtract p e => ECall (named tz (XExtract p XCol)) (frame_means c e)
    | XDatepart p e => ECall (named tz (XDatepart p XCol)) (frame_means c e)
    | XToChar e f => ECall (named tz (XToChar XCol f)) (frame_means c e)
    | XDateFormat e f => ECall (named tz (XDateFormat XCol f)) (frame_means c e)
    | XFormatDatetime e f => ECall (named tz (XFormatDatetime XCol f)) (frame_means c e)
    | XFormatFirst f e => ECall (named tz (XFormatFirst f XCol)) (frame_means c e)
    | XCastFormat e f => ECall (named tz (XCastFormat XCol f)) (frame_means c e)
    | XLeftName p e => ECall (named tz (XLeftName p XCol)) (frame_means c e)
    | XCase e l d => ECall (named tz (XCase XCol l d)) (frame_means c e)
    | XDateadd n e => ECall (named tz (XDateadd n XCol)) (frame_means c e)
    | XDateAdd e n => ECall (named tz (XDateAdd XCol n)) (frame_means c e)
    | XConvert e => ECall (named tz (XConvert XCol)) (frame_means c e)
    | XDatetimeZone e => ECall (named tz (XDatetimeZone XCol)) (frame_means c e)
    end.
End Meaning.

Lemma enclose_R : forall lv n f t e, R lv n (enclose f t) (ECall f e) <-> n <= 7 /\ R lv 0 t e.
Proof.
  intros. split.
  - intro H. split; [eapply R_le7; exact H | eapply call_inv; [exact H | reflexivity | reflexivity]].
  - intros [L H]. apply (R_weaken _ 7); [apply R_call; exact H | exact L].
Qed.
Lemma atom_text : forall lv n ts e, R lv n ts e -> forall s x l, e = EAtom s -> ts = l ++ [TAtom x] -> ts = [TAtom s].
Proof.
  intros lv n ts e H. induction H; intros s' x' l' E T; try discriminate E.
  - now injection E as ->.
  - exfalso. change (TOpen :: ts ++ [TClose]) with ((TOpen :: ts) ++ [TClose]) in T. apply app_inj_tail in T. now destruct T.
  - eapply IHR; eassumption.
Qed.
Lemma last_bin : forall lv n ts e, R lv n ts e -> forall o t a s, ts = t ++ [TOp o; TAtom s] -> e = EBin o a (EAtom s) ->
  n <= prec o /\ R lv (prec o) t a.
Proof.
  intros lv n ts e H. induction H; intros o' t a' s' T E; try discriminate E.
  - exfalso. change (TOpen :: ts ++ [TClose]) with ((TOpen :: ts) ++ [TClose]) in T.
    change (t ++ [TOp o'; TAtom s']) with (t ++ [TOp o'] ++ [TAtom s']) in T. rewrite app_assoc in T. apply app_inj_tail in T. now destruct T.
  - injection E as -> -> ->. split; [lia|].
    assert (Q : r = [TAtom s']).
    { destruct (@exists_last _ r) as [r0 [z Z]]; [apply R_shape in H0; eapply shape_nonempty; exact H0|]. subst r.
      eapply atom_text; [exact H0 | reflexivity |].
      change (t ++ [TOp o'; TAtom s']) with (t ++ [TOp o'] ++ [TAtom s']) in T.
      replace (l ++ TOp o' :: r0 ++ [z]) with ((l ++ TOp o' :: r0) ++ [z]) in T by (rewrite <- app_assoc; reflexivity).
      rewrite app_assoc in T. apply app_inj_tail in T. destruct T as [_ ->]. reflexivity. }
    subst r. change (l ++ TOp o' :: [TAtom s']) with (l ++ [TOp o'; TAtom s']) in T. apply app_inv_tail in T. now subst.
  - destruct (IHR _ _ _ _ T E) as [L Q]. split; [lia | exact Q].
Qed.
Lemma last_R : forall lv n o t a s, R lv n (t ++ [TOp o; TAtom s]) (EBin o a (EAtom s)) <-> n <= prec o /\ R lv (prec o) t a.
Proof.
  intros. split.
  - intro H. eapply last_bin; [exact H | reflexivity | reflexivity].
  - intros [L H]. apply (R_weaken _ (prec o)); [|exact L]. apply (R_bin lv o t a [TAtom s]); [exact H|].
    apply (R_weaken _ 7); [apply R_atom | destruct o; cbn; lia].
Qed.

(** The levels of the text of the dimension: what is asked of it when the whole is to be read at level n *)
Fixpoint asks (n : nat) (x : texpr) (col : nat -> Prop) : Prop :=
  match x with
  | XCol => col n
  | XInterval e _ => n <= 5 /\ asks 5 e col
  | XAtZone e => n <= 6 /\ asks 6 e col
  | XCast e _ | XTrunc _ e | XDateTrunc e _ | XDatetimeTrunc e _ | XAddDiff _ e | XExtract _ e | XDatepart _ e | XToChar e _
  | XDateFormat e _ | XFormatDatetime e _ | XFormatFirst _ e | XCastFormat e _ | XLeftName _ e | XCase e _ _ | XDateadd _ e
  | XDateAdd e _ | XConvert e | XDatetimeZone e => n <= 7 /\ asks 0 e col
  end.
Lemma frame_R : forall tz lv t c x n,
  R lv n (frame_text tz t x) (frame_means tz c x) <-> asks n x (fun m => R lv m t c).
Proof.
  intros tz lv t c x. induction x; intro k; cbn [frame_text frame_means asks]; try (rewrite enclose_R, IHx; reflexivity); try reflexivity.
  - rewrite last_R, IHx. reflexivity.
  - rewrite !last_R, IHx. cbn [prec]. intuition lia.
Qed.

(** The sql of the dimension stands unbracketed before "+ INTERVAL": a fiscal timeframe of a model whose year does not begin in
    January, in the four warehouses written so, when the time zone has not been converted first *)
Definition bare_interval (zone : bool) (o : Z) (qt name : string) : bool :=
  (negb (o =? 0)%Z && mem qt ["POSTGRES"; "DUCK_DB"; "DRUID"; "TRINO"] && (negb zone || String.eqb qt "DRUID")
   && prefix "fiscal_" name)%bool.
Definition warehouses : list string :=
  ["SNOWFLAKE"; "REDSHIFT"; "DATABRICKS"; "POSTGRES"; "DUCK_DB"; "TRINO"; "DRUID"; "SQL_SERVER"; "AZURE_SYNAPSE"; "BIGQUERY"].
Lemma time_known : forall dt zone o qt name x, time_sql dt zone o qt name = Ok x -> In qt warehouses /\ In name (map fst frames).
Proof.
  intros dt zone o qt name x H. unfold time_sql in H. apply bind_ok in H. destruct H as [s [_ H]].
  destruct (table qt dt) as [f|] eqn:T; [|discriminate]. destruct (assoc name frames) as [g|] eqn:A; [|discriminate]. split.
  - unfold table in T. destruct (find _ _) as [y|] eqn:F; [|discriminate]. apply find_some in F. destruct F as [I E].
    apply String.eqb_eq in E. subst qt. unfold warehouses.
    repeat (destruct I as [<-|I]; [cbn; tauto|]). destruct I.
  - apply assoc_In in A. now apply (in_map fst) in A.
Qed.
Lemma frame_name : forall name f, assoc name frames = Some f -> is_fiscal f = prefix "fiscal_" name /\ (name <> "raw" -> f <> FRaw).
Proof.
  intros name f A. apply assoc_In in A. cbn [In frames] in A.
  repeat destruct A as [A|A]; try contradiction; injection A as <- <-; split; try reflexivity; congruence.
Qed.
Lemma table_asks : forall dt qt g f, table qt dt = Some g -> f <> FRaw -> forall s n (P : nat -> Prop), n <= 7 ->
  (asks n (g f s) P <-> asks 0 s P).
Proof.
  intros dt qt g f T F s n P L. unfold table in T. destruct (find _ _) as [y|] eqn:E; [|discriminate]. injection T as <-.
  apply find_some in E. destruct E as [I _]. assert (Z : 0 <= 7) by lia.
  repeat destruct I as [<-|I]; try contradiction; destruct f; try congruence; cbn; tauto.
Qed.
(** Every timeframe but "raw", in every warehouse, is a primary text: it can be put in any place.  It says what the dimension's
    sql says as soon as that can be read at all; when the sql stands before "+ INTERVAL" it must be a sum, a product or
    tighter, and then that is needed too. *)
Theorem C88_timeframe : forall tz dt zone o qt name x lv t c,
  time_sql dt zone o qt name = Ok x -> name <> "raw" ->
  forall n, n <= 7 ->
  (R lv n (frame_text tz t x) (frame_means tz c x) <-> R lv (if bare_interval zone o qt name then 5 else 0) t c).
Proof.
  intros tz dt zone o qt name x lv t c H N n L. rewrite frame_R. destruct (time_known _ _ _ _ _ _ H) as [W _].
  unfold time_sql in H. apply bind_ok in H. destruct H as [s [A H]].
  destruct (table qt dt) as [g|] eqn:T; [|discriminate]. destruct (assoc name frames) as [f|] eqn:B; [|discriminate].
  apply bind_ok in H. destruct H as [s' [C H]]. injection H as <-. destruct (frame_name _ _ B) as [E F].
  rewrite (table_asks _ _ _ _ T (F N) _ _ _ L). unfold bare_interval. rewrite <- E. clear T B E F N L.
  destruct (is_fiscal f); unfold fiscal in C; destruct (o =? 0)%Z; cbn [In warehouses] in W;
  repeat destruct W as [<-|W]; try contradiction; destruct zone; cbn in A; injection A as <-; cbn in C; injection C as <-; cbn;
  intuition lia.
Qed.
(** "raw" is the dimension's sql as it is, or, where the time zone is converted, a primary text as well. *)
Definition converted (zone : bool) (qt : string) : bool := zone && negb (mem qt ["DRUID"; "SQL_SERVER"; "AZURE_SYNAPSE"]).
Theorem C88_raw : forall tz dt zone o qt x lv t c n,
  time_sql dt zone o qt "raw" = Ok x -> n <= 7 ->
  (R lv n (frame_text tz t x) (frame_means tz c x) <-> R lv (if converted zone qt then 0 else n) t c).
Proof.
  intros tz dt zone o qt x lv t c n H L. rewrite frame_R. destruct (time_known _ _ _ _ _ _ H) as [W _].
  unfold converted. cbn [In warehouses] in W.
  repeat destruct W as [<-|W]; try contradiction; destruct zone; cbn in H; injection H as <-; cbn; intuition lia.
Qed.
(** The references in the dimension's sql are replaced before the timeframe is put around it; that is the field whose own
    text is the timeframe, so what is proved of the references of a dimension holds of a timeframe's. *)
Theorem C88_timeframe_references : forall tz f s t x, subst_refs f s = Ok t -> subst_refs f (frame_text tz s x) = Ok (frame_text tz t x).
Proof.
  intros tz f s t x H.
  assert (A : forall g a b, subst_refs f a = Ok b -> subst_refs f (enclose g a) = Ok (enclose g b)).
  { intros g a b E. unfold enclose. change (TCall g :: a ++ [TClose]) with ([TCall g] ++ a ++ [TClose]).
    change (TCall g :: b ++ [TClose]) with ([TCall g] ++ b ++ [TClose]). repeat apply subst_app_ok; auto. }
  induction x; cbn [frame_text]; try (apply A; assumption); try assumption; repeat apply subst_app_ok; auto.
Qed.

(** The weeks *)
Fixpoint week_means (c : expr) (x : dexpr) : expr :=
  match x with
  | DCol => c
  | DCastDate e => ECall "CAST(# AS DATE)" (week_means c e)
  | DCastTs e => ECall "CAST(# AS TIMESTAMP)" (week_means c e)
  | DPlus e n => EBin (OAdd (sign n)) (week_means c e) (EAtom (digits n))
  | DPlusInterval e n => EBin (OAdd (sign n)) (week_means c e) (EAtom ("INTERVAL '" ++ digits n ++ "' DAY")%string)
  | DTrunc u e => ECall ("DATE_TRUNC('" ++ unit_name u ++ "', #)")%string (week_means c e)
  | DAdd u n e => ECall ("DATEADD(" ++ unit_name u ++ ", " ++ Timeframe_Model.z_str n ++ ", #)")%string (week_means c e)
  | DAddDiff u e => ECall ("DATEADD(" ++ unit_name u ++ ", DATEDIFF(" ++ unit_name u ++ ", 0, #), 0)")%string (week_means c e)
  | DWeekNo e => ECall "EXTRACT(WEEK FROM #)" (week_means c e)
  | DMinusPlus1 a b => EBin (OAdd "+") (EBin (OAdd "-") (week_means c a) (week_means c b)) (EAtom "1")
  end.
(** The text ends in "- 1" or "- INTERVAL '1' DAY": the week begins on another day than Monday, in a warehouse where the
    shift back is not inside a function *)
Definition shifted_back (wsd qt : string) : bool :=
  negb (String.eqb wsd "monday") && negb (mem qt ["BIGQUERY"; "SQL_SERVER"; "AZURE_SYNAPSE"]).
Definition week_days : list string := ["monday"; "sunday"; "saturday"; "friday"; "thursday"; "wednesday"; "tuesday"].
Lemma week_known : forall wsd qt x, week_sql wsd qt = Ok x -> In qt warehouses /\ In wsd week_days.
Proof.
  intros wsd qt x H. unfold week_sql in H. apply bind_ok in H. destruct H as [e [H _]].
  assert (Q : forall s o y, week_sql_date_trunc s o qt = Ok y -> In qt warehouses).
  { intros s o y T. unfold week_sql_date_trunc in T.
    destruct (mem qt ["SNOWFLAKE"; "REDSHIFT"]) eqn:M1; [apply mem_In in M1; cbn in *; tauto|].
    destruct (mem qt q_interval) eqn:M2; [apply mem_In in M2; cbn in *; tauto|].
    destruct (String.eqb qt "BIGQUERY") eqn:M3; [apply String.eqb_eq in M3; subst; cbn; tauto|].
    destruct (mem qt ["SQL_SERVER"; "AZURE_SYNAPSE"]) eqn:M4; [apply mem_In in M4; cbn in *; tauto | discriminate]. }
  destruct (String.eqb wsd "monday") eqn:M.
  - apply String.eqb_eq in M. subst. split; [eapply Q; exact H | cbn; tauto].
  - destruct (assoc wsd offset_lookup) as [o|] eqn:A; [|discriminate]. apply bind_ok in H. destruct H as [e' [T _]].
    split; [eapply Q; exact T|]. apply assoc_In in A. apply (in_map fst) in A. cbn in *. tauto.
Qed.
(** The week of a date says what the dimension's sql says as soon as that can be read; the whole is a sum when the shift
    back stands at its end, and can then be put no deeper than in a sum. *)
Theorem C88_week : forall wsd qt x lv t c n, week_sql wsd qt = Ok x -> n <= 7 ->
  (R lv n (week_text t x) (week_means c x) <-> R lv 0 t c /\ (shifted_back wsd qt = true -> n <= 5)).
Proof.
  intros wsd qt x lv t c n H L. destruct (week_known _ _ _ H) as [W D].
  unfold shifted_back. cbn [In warehouses week_days] in W, D.
  repeat destruct W as [<-|W]; try contradiction; repeat destruct D as [<-|D]; try contradiction;
  cbn in H; injection H as <-; cbn [week_text week_means]; rewrite ?last_R, ?enclose_R, ?last_R, ?enclose_R, ?last_R, ?enclose_R; cbn;
  intuition (lia || discriminate).
Qed.
(** The week of the month is always a sum: it can be put in a sum (on the left), compared and so on, but never in a product. *)
Theorem C88_week_of_month : forall lv t c n, reads t c ->
  (R lv n (week_text t week_of_month_sql) (week_means c week_of_month_sql) <-> R lv 0 t c /\ n <= 5).
Proof.
  intros lv t c n Q. unfold week_of_month_sql. cbn [week_text week_means]. rewrite last_R. cbn [prec]. split.
  - intros [L H]. split; [|exact L].
    assert (S : forall f a b, shape a b -> shape (enclose f a) (ECall f b)) by (intros f a b X; eapply shape_wrap; eauto).
    apply R_shape in Q.
    destruct (bin_inv _ _ _ _ H _ _ _ _ _ eq_refl eq_refl (S _ _ _ Q) (S _ _ _ (S _ _ _ Q))) as [A _]. now apply enclose_R in A.
  - intros [H L]. split; [exact L|]. apply (R_bin lv (OAdd "-")); cbn [prec]; repeat (apply enclose_R; split; [lia|]); exact H.
Qed.

(** Half the week of the month is not half of it: only the 1 is halved. *)
Definition calendar (x : string) : option fdef :=
  assoc x [("created_week_of_month", Fdef KDim (week_text [TAtom "o.created"] week_of_month_sql) "o_created_week_of_month");
           ("fortnight", Fdef KDim [TRef "created_week_of_month"; TOp (OMul "/"); TAtom "2"] "o_fortnight")].
Definition day20 (s : string) : Z := if String.eqb s "o.created" then 20%Z else if String.eqb s "2" then 2%Z else 1%Z.
(** stands for the functions of dates: the month begins three weeks earlier *)
Definition weeks (f : string) (z : Z) : Z := if prefix "DATE_TRUNC" f then (z - 3)%Z else z.
Theorem C88_week_of_month_refuted : exists p fuel x t e e' row fn,
  full_text p fuel x = Ok t /\ means p x e /\ reads t e' /\ value row fn e = 2%Z /\ value row fn e' = 3%Z.
Proof.
  exists calendar, 9, "fortnight". do 2 eexists. exists
    (let f a := ECall "EXTRACT(WEEK FROM #)" a in
     EBin (OAdd "+") (EBin (OAdd "-") (f (EAtom "o.created")) (f (ECall "DATE_TRUNC('MONTH', #)" (EAtom "o.created"))))
       (EBin (OMul "/") (EAtom "1") (EAtom "2"))).
  exists day20, weeks. split; [reflexivity|]. split; [|split; [|split]].
  - exists 2. do 3 eexists. split; [reflexivity|]. split; [apply (read_bin _ 0 (OMul "/") [TRef "created_week_of_month"]); cbn; [leaf | leaf | lia]|].
    split; [|reflexivity]. constructor; [|constructor]. constructor. do 3 eexists. split; [reflexivity|]. cbn [f_sql]. split.
    + apply C88_week_of_month; [|split]; [leaf | leaf | lia].
    + split; [cbn; repeat constructor | reflexivity].
  - unfold reads. cbn.
    apply (read_bin _ 0 (OAdd "+") [TCall "EXTRACT(WEEK FROM #)"; TAtom "o.created"; TClose; TOp (OAdd "-"); TCall "EXTRACT(WEEK FROM #)";
      TCall "DATE_TRUNC('MONTH', #)"; TAtom "o.created"; TClose; TClose] _ [TAtom "1"; TOp (OMul "/"); TAtom "2"]); cbn [prec]; [| |lia].
    + apply (read_bin _ 5 (OAdd "-") (enclose "EXTRACT(WEEK FROM #)" [TAtom "o.created"]) _
        (enclose "EXTRACT(WEEK FROM #)" (enclose "DATE_TRUNC('MONTH', #)" [TAtom "o.created"]))); cbn [prec]; [| |lia];
        repeat (apply enclose_R; split; [lia|]); leaf.
    + apply (read_bin _ 6 (OMul "/") [TAtom "1"]); cbn; [leaf | leaf | lia].
  - reflexivity.
  - reflexivity.
Qed.
(** the fiscal quarter of a timestamp less an interval, in postgres; the week from Sunday in snowflake *)
Example C88_timeframe_example :
  let t := [TAtom "o.created"; TOp (OAdd "-"); TAtom "INTERVAL '1' DAY"] in
  let c := EBin (OAdd "-") (EAtom "o.created") (EAtom "INTERVAL '1' DAY") in
  (exists x, time_sql Timestamp false 2 "POSTGRES" "fiscal_quarter" = Ok x /\ bare_interval false 2 "POSTGRES" "fiscal_quarter" = true /\
     reads t c /\ R (fun _ => 7) 7 (frame_text "UTC" t x) (frame_means "UTC" c x) /\
     frame_text "UTC" t x = [TCall "DATE_TRUNC('QUARTER', #)"; TCall "CAST(# AS TIMESTAMP)"] ++ t
       ++ [TOp (OAdd "+"); TAtom "INTERVAL '2' MONTH"; TClose; TClose]) /\
  (exists x, time_sql Timestamp true 0 "SNOWFLAKE" "raw" = Ok x /\ converted true "SNOWFLAKE" = true) /\
  (exists x, week_sql "sunday" "SNOWFLAKE" = Ok x /\ shifted_back "sunday" "SNOWFLAKE" = true).
Proof.
  cbn zeta.
  assert (Q : forall n, n <= 5 -> R (fun _ => 7) n [TAtom "o.created"; TOp (OAdd "-"); TAtom "INTERVAL '1' DAY"]
    (EBin (OAdd "-") (EAtom "o.created") (EAtom "INTERVAL '1' DAY"))).
  { intros n L. apply (read_bin _ n (OAdd "-") [TAtom "o.created"]); cbn; [leaf | leaf | exact L]. }
  split; [|split; eexists; split; reflexivity]. eexists. split; [reflexivity|]. split; [reflexivity|]. split; [apply Q; lia|]. split; [|reflexivity].
  eapply (C88_timeframe "UTC" Timestamp false 2 "POSTGRES" "fiscal_quarter"); [reflexivity | discriminate | lia | apply Q; cbn; lia].
Qed.

Print Assumptions C88_timeframe.
Print Assumptions C88_raw.
Print Assumptions C88_timeframe_references.
Print Assumptions C88_week.
Print Assumptions C88_week_of_month.
Print Assumptions C88_week_of_month_refuted.
