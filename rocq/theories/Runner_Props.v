(** C70: a query that is run. *)
From Coq Require Import List String Ascii Bool Arith ZArith Lia.
From Verif Require Import PyBase PyStr JoinAs_Model Connections_Model Runner_Model.
Import ListNotations.
Local Open Scope string_scope.
Local Open Scope list_scope.

(** ** What a sequence of calls did *)
Fixpoint executed (l : list event) : list string := match l with [] => [] | Executes x _ :: r => x :: executed r | _ :: r => executed r end.
Fixpoint setups (l : list event) : list string := match l with [] => [] | Setup x :: r => x :: setups r | _ :: r => setups r end.
Fixpoint closed (l : list event) : nat := match l with [] => 0 | Closes :: r => S (closed r) | _ :: r => closed r end.
Fixpoint connected (l : list event) : nat := match l with [] => 0 | Connects _ :: r => S (connected r) | _ :: r => connected r end.
(** the texts executed in the session before the first query *)
Fixpoint before_query (l : list event) : list string := match l with [] => [] | Executes _ _ :: _ => [] | Setup x :: r => x :: before_query r | _ :: r => before_query r end.

Definition runnable : list warehouse_type := [Snowflake; BigQuery; Redshift; Postgres].
Ltac walk H :=
  repeat first
    [ progress (unfold run_query, runner, runners, run_snowflake, run_bigquery, run_redshift, run_postgres, pre_queries, andthen, make, ret in H;
                cbn [List.find same_type fst snd k_type o_raw o_pre o_start o_timeout List.length List.app] in H)
    | match type of H with context [if ?b then _ else _] => destruct b eqn:? end ].

Section Props.
  Variable fail : event -> nat -> bool.
  (** C70: whatever fails, the text is executed at most once and nothing else is *)
  Theorem C70_only_its_sql q c o a t : run_query fail q c o = (a, t) -> executed t = [] \/ executed t = [q].
  Proof. destruct c as [k wh db sc]. intros H. destruct k; walk H; injection H as <- <-; cbn; auto. Qed.
  (** C70: rows that are returned are those of the text, which was executed once in one session, closed once *)
  Theorem C70_rows q c o x t : run_query fail q c o = (Done (Rows x), t) -> x = q /\ executed t = [q] /\ connected t = 1 /\ closed t = 1 /\ o_raw o = false.
  Proof. destruct c as [k wh db sc]. intros H. destruct k; walk H; inversion H; subst; cbn; auto. Qed.
  (** C70: a cursor that is returned has executed the text, except with Postgres *)
  Theorem C70_cursor q c o x t : k_type c <> Postgres -> run_query fail q c o = (Done (RawCursor x), t) -> x = Some q /\ executed t = [q] /\ connected t = 1 /\ closed t = 1.
  Proof. destruct c as [k wh db sc]. cbn [k_type]. intros P H. destruct k; try congruence; walk H; inversion H; subst; cbn; auto. Qed.
  Theorem C70_postgres_cursor_refuted q c o a t : k_type c = Postgres -> o_raw o = true -> run_query fail q c o = (Done a, t) -> a = RawCursor None /\ executed t = [] /\ closed t = 0.
  Proof. destruct c as [k wh db sc]. cbn [k_type]. intros -> R H. unfold run_query, runner, runners in H. cbn [List.find same_type fst snd k_type] in H. unfold run_postgres in H. rewrite R in H. walk H; inversion H; subst; cbn; auto. Qed.
  (** C70: if no call fails there is an answer, for the four types *)
  Theorem C70_answers q c o : (forall e n, fail e n = false) -> In (k_type c) runnable -> exists a t, run_query fail q c o = (Done a, t) /\ (o_raw o = false -> a = Rows q).
  Proof.
    intros F I. destruct (run_query fail q c o) as [a t] eqn:H. destruct c as [k wh db sc]. cbn [k_type] in I.
    destruct k; cbn in I; try (exfalso; intuition discriminate); walk H; try (rewrite F in *; discriminate); inversion H; subst; do 2 eexists; (split; [reflexivity|]); intros; (reflexivity || congruence).
  Qed.
  (** C70: the other types are refused before anything is called *)
  Theorem C70_unsupported q c o : In (k_type c) runnable \/ run_query fail q c o = (Raised FUnsupported, []).
  Proof. destruct c as [k wh db sc]. cbn [k_type]. unfold runnable. destruct k; cbn; tauto. Qed.
  (** six of the ten types a connection can have cannot be run *)
  Theorem C70_types_refuted : forall k, In k all_types /\ ((forall q c o, k_type c = k -> run_query fail q c o = (Raised FUnsupported, [])) <-> In k [Druid; SqlServer; AzureSynapse; DuckDb; Databricks; Trino]).
  Proof.
    intros k. split; [destruct k; cbn; tauto|]. split.
    - intros H. specialize (H "" (Connection k None None None) default_options eq_refl). destruct k; cbn in *; try tauto; exfalso; unfold run_query, runner, runners in H; cbn [List.find same_type fst snd k_type] in H; walk H; discriminate H.
    - intros I q c o E. destruct (C70_unsupported q c o) as [R|R]; [|exact R]. exfalso. rewrite E in R. destruct k; cbn in *; intuition discriminate.
  Qed.
  (** a query that fails leaves its session open *)
  Theorem C70_left_open_refuted q c o x s t : run_query fail q c o = (Raised (FCall (Executes x s)), t) -> connected t = 1 /\ closed t = 0.
  Proof. destruct c as [k wh db sc]. intros H. destruct k; walk H; inversion H; subst; cbn; auto. Qed.
  (** except with Postgres, the rows are fetched after the session was closed *)
  Theorem C70_fetched_after_closing_refuted q c o x t : k_type c <> Postgres -> run_query fail q c o = (Done (Rows x), t) -> exists l, t = l ++ [Closes; Fetches].
  Proof.
    destruct c as [k wh db sc]. cbn [k_type]. intros P H. destruct k; try congruence; walk H; inversion H; subst;
    match goal with |- exists l, ?t = _ => exists (firstn (List.length t - 2) t) end; reflexivity.
  Qed.
  (** C70: the timeout reaches the warehouse: with the text for Snowflake and BigQuery, when connecting for the others, in milliseconds for Postgres *)
  Theorem C70_timeout q c o a t : run_query fail q c o = (a, t) -> executed t = [q] ->
    match k_type c with
    | Snowflake | BigQuery => In (Executes q (Some (o_timeout o))) t
    | Redshift => In (Connects (Some (o_timeout o))) t
    | _ => o_timeout o <> 0%Z -> exists ms, In (Connects (Some ms)) t /\ ms = (1000 * o_timeout o)%Z
    end.
  Proof.
    destruct c as [k wh db sc]. cbn [k_type]. intros H E. destruct k; walk H; injection H as <- <-; try discriminate E; try (cbn; tauto);
    try (intros N; exfalso; apply N; apply Z.eqb_eq; assumption); intros _; eexists; (split; [cbn; left; reflexivity|lia]).
  Qed.
  (** a timeout of zero is no timeout with Postgres *)
  Theorem C70_zero_timeout_refuted q c o a t : k_type c = Postgres -> o_timeout o = 0%Z -> run_query fail q c o = (a, t) -> forall s, ~ In (Connects (Some s)) t /\ ~ In (Executes q (Some s)) t.
  Proof.
    destruct c as [k wh db sc]. cbn [k_type]. intros -> Z0 H s. unfold run_query, runner, runners in H. cbn [List.find same_type fst snd k_type] in H. unfold run_postgres in H. rewrite Z0 in H. cbn [Z.eqb] in H.
    walk H; injection H as <- <-; cbn; intuition discriminate.
  Qed.

  (** ** The session of the query *)
  Theorem C70_prepared q c o a t : run_query fail q c o = (a, t) -> k_type c = Snowflake -> executed t = [q] ->
    List.fold_left append (before_query t) "" = if o_pre o then pre_text c false else if o_start o then pre_text c true else "".
  Proof.
    destruct c as [k wh db sc]. cbn [k_type]. intros H -> E. unfold run_query, runner, runners in H. cbn [List.find same_type fst snd k_type] in H. unfold run_snowflake, pre_queries in H.
    remember (pre_text (Connection Snowflake wh db sc) false) as p1. remember (pre_text (Connection Snowflake wh db sc) true) as p2.
    destruct (o_pre o); [|destruct (o_start o)]; walk H; injection H as <- <-; try discriminate E; cbn; try reflexivity;
    match goal with X : String.eqb _ "" = true |- _ => apply String.eqb_eq in X; now rewrite X | _ => idtac end.
  Qed.
  (** C70: no empty text is executed to prepare a session *)
  Theorem C70_no_empty_text q c o a t : run_query fail q c o = (a, t) -> ~ In "" (setups t).
  Proof.
    intros H. assert (P : forall b l z l', pre_queries fail c b l = (z, l') -> exists n, l' = l ++ n /\ ~ In "" (setups n)).
    { intros b l z l'. unfold pre_queries. destruct (String.eqb_spec (pre_text c b) "") as [E|E]; intros K; injection K as <- <-; [exists []; now rewrite app_nil_r|exists [Setup (pre_text c b)]; split; [reflexivity|cbn; intuition]]. }
    destruct c as [k wh db sc]. destruct k; try (walk H; injection H as <- <-; cbn; tauto).
    unfold run_query, runner, runners in H. cbn [List.find same_type fst snd k_type] in H. unfold run_snowflake, andthen, make, ret in H. cbn [List.length app] in H.
    assert (A : forall n m, setups (n ++ m) = setups n ++ setups m) by (intros n m; induction n as [|[] n IH]; cbn; now rewrite ?IH).
    destruct (fail (Connects None) 0); [injection H as <- <-; cbn; tauto|].
    match type of H with context [match ?x with (_, _) => _ end] => idtac end.
    set (g := if o_pre o then _ else _) in H.
    assert (G : forall z l', g [Connects None] = (z, l') -> exists n, l' = [Connects None] ++ n /\ ~ In "" (setups n)).
    { intros z l'. unfold g. destruct (o_pre o); [apply P|]. destruct (o_start o); [apply P|]. intros K. injection K as <- <-. exists []. cbn. auto. }
    destruct (g [Connects None]) as [z l'] eqn:E. destruct (G z l' eq_refl) as (n & -> & N). clear G E g.
    repeat match type of H with context [if ?b then _ else _] => destruct b | context [match ?x with Done _ => _ | Raised _ => _ end] => destruct x end; injection H as <- <-; cbn [setups app]; rewrite ?A; cbn [setups app]; rewrite ?app_nil_r; exact N.
  Qed.
  (** only Snowflake uses the schema of the connection *)
  Theorem C70_schema_ignored_refuted q c o a t : k_type c <> Snowflake -> run_query fail q c o = (a, t) -> setups t = [].
  Proof. destruct c as [k wh db sc]. cbn [k_type]. intros P H. destruct k; try congruence; walk H; injection H as <- <-; reflexivity. Qed.
End Props.

(** ** What the statements mean: a session has a warehouse, a database and a schema.
    A name is written plainly, and is then read in upper case, or between quotes, where a quote is doubled. *)
Record session := Session { s_warehouse : option string; s_database : option string; s_schema : option string }.
Definition quote : ascii := """"%char.
Definition word (c : ascii) : bool := is_letter c || Ascii.eqb c "_" || (Nat.leb 48 (nat_of_ascii c) && Nat.leb (nat_of_ascii c) 57) || Ascii.eqb c "$".
Definition first_of_word (c : ascii) : bool := is_letter c || Ascii.eqb c "_".
Definition push (c : ascii) (r : option (string * string)) : option (string * string) := match r with Some (n, t) => Some (String c n, t) | None => None end.
Fixpoint read_quoted (s : string) : option (string * string) :=
  match s with
  | EmptyString => None
  | String c r =>
      if Ascii.eqb c quote then match r with String c' r' => if Ascii.eqb c' quote then push quote (read_quoted r') else Some ("", r) | EmptyString => Some ("", "") end
      else push c (read_quoted r)
  end.
Fixpoint read_plain (s : string) : string * string :=
  match s with
  | String c r => if word c then let (n, t) := read_plain r in (String (upper_ascii c) n, t) else ("", s)
  | EmptyString => ("", "")
  end.
Definition read_name (s : string) : option (string * string) :=
  match s with
  | String c r => if Ascii.eqb c quote then read_quoted r else if first_of_word c then Some (read_plain s) else None
  | EmptyString => None
  end.
Fixpoint after (p s : string) : option string :=
  match p with EmptyString => Some s | String a p' => match s with String b s' => if Ascii.eqb a b then after p' s' else None | EmptyString => None end end.
(** a name and the end of its statement *)
Definition operand (s : string) : option (string * string) := match read_name s with Some (n, t) => match after ";" t with Some r => Some (n, r) | None => None end | None => None end.
(** one statement; choosing a database chooses its schema PUBLIC *)
Definition statement (s : string) (z : session) : option (session * string) :=
  match after "USE WAREHOUSE " s with
  | Some r => match operand r with Some (n, t) => Some (Session (Some n) (s_database z) (s_schema z), t) | None => None end
  | None =>
      match after "USE DATABASE " s with
      | Some r => match operand r with Some (n, t) => Some (Session (s_warehouse z) (Some n) (Some "PUBLIC"), t) | None => None end
      | None =>
          match after "USE SCHEMA " s with
          | Some r => match operand r with Some (n, t) => Some (Session (s_warehouse z) (s_database z) (Some n), t) | None => None end
          | None => None
          end
      end
  end.
(** all of them; [None]: not statements of this kind *)
Fixpoint statements (fuel : nat) (s : string) (z : session) : option session :=
  match s with
  | EmptyString => Some z
  | _ => match fuel with O => None | S n => match statement s z with Some (z', r) => statements n r z' | None => None end end
  end.
Definition after_text (s : string) (z : session) : option session := statements (String.length s) s z.

Lemma after_app p s : after p (p ++ s) = Some s.
Proof. induction p as [|a p IH]; [reflexivity|]. cbn. now rewrite Ascii.eqb_refl. Qed.
Definition no_quote (s : string) : Prop := has_char quote s = false.
Fixpoint words (s : string) : bool := match s with EmptyString => true | String c r => word c && words r end.
Definition plain_name (s : string) : Prop := match s with String c _ => first_of_word c = true /\ words s = true | EmptyString => False end.
Lemma upper_quote c : Ascii.eqb (upper_ascii c) quote = Ascii.eqb c quote.
Proof. destruct c as [[] [] [] [] [] [] [] []]; reflexivity. Qed.
Lemma upper_no_quote s : no_quote s -> no_quote (upper s).
Proof.
  unfold no_quote. induction s as [|c s IH]; [auto|]. cbn [upper has_char]. intros H. apply orb_false_iff in H. destruct H as [A B]. rewrite (IH B), orb_false_r.
  pose proof (upper_quote c) as U. rewrite (Ascii.eqb_sym (upper_ascii c)), (Ascii.eqb_sym c) in U. first [rewrite U; exact A|rewrite Ascii.eqb_sym, U, Ascii.eqb_sym; exact A].
Qed.
Lemma quoted_read s r : no_quote s -> read_quoted (s ++ String quote (String ";" r)) = Some (s, String ";" r).
Proof.
  unfold no_quote. induction s as [|c s IH]; [reflexivity|]. cbn [has_char append read_quoted]. intros H. apply orb_false_iff in H. destruct H as [A B].
  assert (C : Ascii.eqb c quote = false) by (first [exact A|rewrite Ascii.eqb_sym; exact A]). rewrite C, (IH B). reflexivity.
Qed.
Lemma plain_read s r : words s = true -> read_plain (s ++ String ";" r) = (upper s, String ";" r).
Proof. induction s as [|c s IH]; [reflexivity|]. cbn [words append read_plain upper]. intros H. apply andb_true_iff in H. destruct H as [A B]. rewrite A, (IH B). reflexivity. Qed.
Lemma operand_quoted s r : no_quote s -> operand ("""" ++ s ++ """;" ++ r) = Some (s, r).
Proof. intros N. unfold operand. change ("""" ++ s ++ """;" ++ r)%string with (String quote (s ++ String quote (String ";" r)))%string. cbn [read_name]. rewrite Ascii.eqb_refl, (quoted_read s r N). cbn. reflexivity. Qed.
Lemma operand_plain s r : plain_name s -> operand (s ++ ";" ++ r) = Some (upper s, r).
Proof.
  intros P. unfold operand. destruct s as [|c s]; [destruct P|]. destruct P as [F W]. change ((String c s) ++ ";" ++ r)%string with (String c (s ++ String ";" r)).
  assert (Q : Ascii.eqb c quote = false) by (destruct c as [[] [] [] [] [] [] [] []]; (reflexivity || discriminate F)). unfold read_name. rewrite Q, F. change (String c (s ++ String ";" r)) with ((String c s) ++ String ";" r)%string. rewrite (plain_read _ r W). reflexivity.
Qed.
Lemma statements_step n s z z' r : statement s z = Some (z', r) -> statements (S n) s z = statements n r z'.
Proof. intros H. destruct s as [|c s]; [discriminate H|]. cbn [statements]. now rewrite H. Qed.
Lemma statements_more n m s z : n <= m -> statements n s z <> None -> statements m s z = statements n s z.
Proof.
  revert m s z. induction n as [|n IH]; intros m s z L; destruct s as [|c s]; intros H; try (destruct m; reflexivity); [cbn in H; congruence|].
  destruct m as [|m]; [lia|]. cbn [statements] in *. destruct (statement (String c s) z) as [[z' r]|]; [|congruence]. apply IH; [lia|exact H].
Qed.
Lemma use_warehouse w r z : plain_name w -> statement ("USE WAREHOUSE " ++ w ++ ";" ++ r) z = Some (Session (Some (upper w)) (s_database z) (s_schema z), r).
Proof. intros P. unfold statement. rewrite after_app, (operand_plain w r P). reflexivity. Qed.
Lemma use_database d r z : no_quote d -> statement ("USE DATABASE """ ++ d ++ """;" ++ r) z = Some (Session (s_warehouse z) (Some d) (Some "PUBLIC"), r).
Proof.
  intros P. unfold statement. change ("USE DATABASE """ ++ d ++ """;" ++ r)%string with ("USE DATABASE " ++ ("""" ++ d ++ """;" ++ r))%string.
  assert (X : after "USE WAREHOUSE " ("USE DATABASE " ++ ("""" ++ d ++ """;" ++ r)) = None) by reflexivity. rewrite X, after_app, (operand_quoted d r P). reflexivity.
Qed.
Lemma use_schema d r z : no_quote d -> statement ("USE SCHEMA """ ++ d ++ """;" ++ r) z = Some (Session (s_warehouse z) (s_database z) (Some d), r).
Proof.
  intros P. unfold statement. change ("USE SCHEMA """ ++ d ++ """;" ++ r)%string with ("USE SCHEMA " ++ ("""" ++ d ++ """;" ++ r))%string.
  assert (X : after "USE WAREHOUSE " ("USE SCHEMA " ++ ("""" ++ d ++ """;" ++ r)) = None) by reflexivity.
  assert (Y : after "USE DATABASE " ("USE SCHEMA " ++ ("""" ++ d ++ """;" ++ r)) = None) by reflexivity. rewrite X, Y, after_app, (operand_quoted d r P). reflexivity.
Qed.
Lemma text_done n s z x : n <= String.length s -> statements n s z = Some x -> after_text s z = Some x.
Proof. intros L H. unfold after_text. rewrite (statements_more n); [exact H|exact L|congruence]. Qed.
Lemma empty_done z : after_text "" z = Some z. Proof. reflexivity. Qed.
(** a name that is there and not empty *)
Definition named (s : option string) : option string := match s with Some (String _ _) => s | _ => None end.
Lemma given_named s : given s = named s. Proof. destruct s as [[|x s]|]; reflexivity. Qed.
Definition chosen (x old : option string) : option string := match x with Some n => Some (upper n) | None => old end.
(** the session asked for by a connection, from a session as the driver opens it *)
Definition asked (c : connection) (z : session) : session :=
  Session (chosen (named (k_warehouse c)) (s_warehouse z)) (chosen (named (k_database c)) (s_database z))
          (chosen (named (k_schema c)) (match named (k_database c) with Some _ => Some "PUBLIC" | None => s_schema z end)).
Definition writable (c : connection) : Prop :=
  (forall w, named (k_warehouse c) = Some w -> plain_name w) /\ (forall d, named (k_database c) = Some d -> no_quote d) /\ (forall d, named (k_schema c) = Some d -> no_quote d).
Lemma schema_text x z : (forall d, x = Some d -> no_quote d) -> 
  statements 1 ((match x with Some d => "USE SCHEMA """ ++ upper d ++ """;" | None => "" end)) z = Some (Session (s_warehouse z) (s_database z) (chosen x (s_schema z))).
Proof.
  intros N. destruct x as [d|]; [|destruct z; reflexivity]. pose proof (use_schema (upper d) "" z (upper_no_quote _ (N d eq_refl))) as U. change (""";" ++ "")%string with """;" in U.
  rewrite (statements_step 0 _ z _ _ U). reflexivity.
Qed.
Lemma database_text x t n z z' : (forall d, x = Some d -> no_quote d) -> 
  statements n t (Session (s_warehouse z) (chosen x (s_database z)) (match x with Some _ => Some "PUBLIC" | None => s_schema z end)) = Some z' ->
  statements (S n) ((match x with Some d => "USE DATABASE """ ++ upper d ++ """;" | None => "" end) ++ t) z = Some z'.
Proof.
  intros N H. destruct x as [d|].
  - pose proof (use_database (upper d) t z (upper_no_quote _ (N d eq_refl))) as U. rewrite <- append_assoc in U. replace (("USE DATABASE """ ++ upper d) ++ """;" ++ t)%string with (("USE DATABASE """ ++ upper d ++ """;") ++ t)%string in U by (now rewrite !append_assoc).
    rewrite (statements_step n _ z _ _ U). exact H.
  - cbn [chosen] in H. destruct z as [a b c]. cbn [append s_warehouse s_database s_schema] in *. rewrite (statements_more n (S n)); [exact H|lia|congruence].
Qed.
Lemma warehouse_text x t n z z' : (forall d, x = Some d -> plain_name d) -> 
  statements n t (Session (chosen x (s_warehouse z)) (s_database z) (s_schema z)) = Some z' ->
  statements (S n) ((match x with Some w => "USE WAREHOUSE " ++ w ++ ";" | None => "" end) ++ t) z = Some z'.
Proof.
  intros N H. destruct x as [w|].
  - pose proof (use_warehouse w t z (N w eq_refl)) as U. replace ("USE WAREHOUSE " ++ w ++ ";" ++ t)%string with (("USE WAREHOUSE " ++ w ++ ";") ++ t)%string in U by (now rewrite !append_assoc).
    rewrite (statements_step n _ z _ _ U). exact H.
  - cbn [chosen] in H. destruct z as [a b c]. cbn [append s_warehouse s_database s_schema] in *. rewrite (statements_more n (S n)); [exact H|lia|congruence].
Qed.
Lemma enough s z x : statements 3 s z = Some x -> s = "" \/ 3 <= String.length s -> after_text s z = Some x.
Proof. intros H [->|L]; [exact H|]. exact (text_done 3 s z x L H). Qed.
Lemma long_enough c b : pre_text c b = "" \/ 3 <= String.length (pre_text c b).
Proof.
  unfold pre_text. rewrite !given_named. destruct (named (k_warehouse c)) as [w|]; [right; cbn; lia|]. destruct (named (k_database c)) as [d|], (named (k_schema c)) as [s|], b; first [now left|right; cbn; lia].
Qed.
Lemma pre_session c z : writable c -> after_text (pre_text c false) z = Some (asked c z).
Proof.
  intros (W & D & S). apply enough; [|apply long_enough]. unfold pre_text. rewrite !given_named. apply warehouse_text; [exact W|]. apply database_text; [exact D|]. cbn [s_warehouse s_database s_schema]. rewrite (schema_text (named (k_schema c)) _ S). reflexivity.
Qed.
Lemma pre_session_warehouse c z : (forall w, named (k_warehouse c) = Some w -> plain_name w) -> after_text (pre_text c true) z = Some (Session (chosen (named (k_warehouse c)) (s_warehouse z)) (s_database z) (s_schema z)).
Proof.
  intros W. apply enough; [|apply long_enough]. unfold pre_text. rewrite !given_named.
  assert (E : ((match named (k_database c) with Some _ => "" | None => "" end) ++ (match named (k_schema c) with Some _ => "" | None => "" end))%string = "") by (destruct (named (k_database c)), (named (k_schema c)); reflexivity).
  cbn iota. rewrite E. apply warehouse_text; [exact W|]. reflexivity.
Qed.
(** C70: with Snowflake the text runs in the warehouse, database and schema of the connection, whatever the driver opened, or not at all *)
Theorem C70_session fail q c o a t z : run_query fail q c o = (a, t) -> k_type c = Snowflake -> executed t = [q] -> o_pre o = true -> writable c ->
  after_text (List.fold_left append (before_query t) "") z = Some (asked c z).
Proof. intros H K E P W. rewrite (C70_prepared fail q c o a t H K E), P. now apply pre_session. Qed.
(** C70: asked to start the warehouse only, it leaves the database and the schema *)
Theorem C70_warehouse_only fail q c o a t z : run_query fail q c o = (a, t) -> k_type c = Snowflake -> executed t = [q] -> o_pre o = false -> writable c ->
  after_text (List.fold_left append (before_query t) "") z = Some (Session (if o_start o then chosen (named (k_warehouse c)) (s_warehouse z) else s_warehouse z) (s_database z) (s_schema z)).
Proof. intros H K E P [W _]. rewrite (C70_prepared fail q c o a t H K E), P. destruct (o_start o); [now apply pre_session_warehouse|destruct z; reflexivity]. Qed.
(** a database or schema whose name has a small letter is never the one used *)
Lemma upper_has s : upper s = s -> forall c, has_char c s = true -> is_lower c = false.
Proof.
  induction s as [|x s IH]; cbn [upper has_char]; intros E c H; [discriminate H|]. injection E as E1 E2. apply orb_true_iff in H. destruct H as [H|H]; [|now apply IH].
  apply Ascii.eqb_eq in H. subst x. destruct c as [[] [] [] [] [] [] [] []]; (reflexivity || discriminate E1).
Qed.
Theorem C70_small_letters_refuted c z d x : writable c -> k_database c = Some d -> has_char x d = true -> is_lower x = true -> exists z', after_text (pre_text c false) z = Some z' /\ s_database z' <> Some d.
Proof.
  intros W K H L. exists (asked c z). split; [now apply pre_session|]. unfold asked. cbn [s_database]. rewrite K. destruct d as [|y d]; [discriminate H|]. cbn [named chosen]. intros E. injection E as E1 E2.
  assert (F : upper (String y d) = String y d) by (cbn [upper]; now rewrite E1, E2). pose proof (upper_has _ F x H). congruence.
Qed.
(** a warehouse whose name must be quoted cannot be started, and a quote in a name writes other statements *)
Theorem C70_warehouse_name_refuted : exists c, k_warehouse c = Some "my-wh" /\ forall z, after_text (pre_text c false) z = None.
Proof. exists (Connection Snowflake (Some "my-wh") None None). split; [reflexivity|]. intros z. reflexivity. Qed.
Theorem C70_quote_refuted : exists c z z', k_warehouse c = Some "small" /\ after_text (pre_text c false) z = Some z' /\ s_warehouse z' = Some "BIG".
Proof. exists (Connection Snowflake (Some "small") (Some "a"";use warehouse ""big") None), (Session None None None). eexists. split; [reflexivity|]. split; [vm_compute; reflexivity|reflexivity]. Qed.

(** ** Cases *)
Definition works (e : event) (n : nat) : bool := false.
Definition wh : connection := Connection Snowflake (Some "load_wh") (Some "analytics") (Some "sales").
Example C70_runs : run_query works "select 1" wh default_options =
  (Done (Rows "select 1"), [Connects None; Setup "USE WAREHOUSE load_wh;USE DATABASE ""ANALYTICS"";USE SCHEMA ""SALES"";"; OpenCursor; Executes "select 1" (Some 180%Z); Closes; Fetches]).
Proof. reflexivity. Qed.
Example C70_writable : writable wh.
Proof. repeat split; cbn; intros x E; injection E as <-; now vm_compute. Qed.
Example C70_in_session : after_text (pre_text wh false) (Session None None None) = Some (Session (Some "LOAD_WH") (Some "ANALYTICS") (Some "SALES")).
Proof. vm_compute. reflexivity. Qed.
Example C70_cursor_case : fst (run_query works "q" (Connection BigQuery None None None) (Options 60 true true true)) = Done (RawCursor (Some "q")).
Proof. reflexivity. Qed.
Example C70_postgres_case : fst (run_query works "q" (Connection Postgres None None None) (Options 60 true true true)) = Done (RawCursor None).
Proof. reflexivity. Qed.
Example C70_failing : run_query (fun e n => match e with Executes _ _ => true | _ => false end) "q" (Connection Redshift None None (Some "s")) default_options = (Raised (FCall (Executes "q" None)), [Connects (Some 180%Z); OpenCursor; Executes "q" None]).
Proof. reflexivity. Qed.

Print Assumptions C70_only_its_sql.
Print Assumptions C70_rows.
Print Assumptions C70_cursor.
Print Assumptions C70_postgres_cursor_refuted.
Print Assumptions C70_answers.
Print Assumptions C70_unsupported.
Print Assumptions C70_types_refuted.
Print Assumptions C70_left_open_refuted.
Print Assumptions C70_fetched_after_closing_refuted.
Print Assumptions C70_timeout.
Print Assumptions C70_zero_timeout_refuted.
Print Assumptions C70_prepared.
Print Assumptions C70_no_empty_text.
Print Assumptions C70_schema_ignored_refuted.
Print Assumptions C70_session.
Print Assumptions C70_warehouse_only.
Print Assumptions C70_small_letters_refuted.
Print Assumptions C70_warehouse_name_refuted.
Print Assumptions C70_quote_refuted.
