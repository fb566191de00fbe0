(** C67: projects kept in git leave no private key and no clone on disk. *)
From Coq Require Import List String Ascii Bool Arith Lia.
From Verif Require Import PyBase PyStr PyReplace Repo_Model.
Import ListNotations.
Local Open Scope string_scope.
Local Open Scope list_scope.

(** ** Specification *)
(** there is a key file at [p] *)
Definition key_file (w : world) (p : string) : Prop := exists t, assoc p (w_disk w) = Some (Key t).
Definition key_text (w : world) (p t : string) : Prop := assoc p (w_disk w) = Some (Key (Some t)).
Definition cloned (w : world) (p : string) : Prop := assoc p (w_disk w) = Some Tree.
(** the remote branch a command changes, and the one an operation is about *)
Definition changes (c : gitcmd) (b : string) : Prop := c = GPush b \/ c = GDelete b.
Definition target (o : op) : string := match o with OCreate b | ODelete b | OCommit _ b | OPull _ b | OMerge _ b _ => b end.

(** ** Calls *)
Lemma assoc_without p q (d : disk) : assoc q (without p d) = if String.eqb q p then None else assoc q d.
Proof.
  induction d as [|[r c] d IH]; cbn [without List.filter assoc fst]; [now destruct (String.eqb q p)|]. fold (without p d). destruct (String.eqb_spec r p) as [->|N]; cbn [negb].
  - rewrite IH. destruct (String.eqb q p); reflexivity.
  - cbn [assoc]. rewrite IH. destruct (String.eqb_spec q r) as [->|M]; [|reflexivity]. destruct (String.eqb_spec r p); [contradiction|reflexivity].
Qed.
Lemma assoc_put p c q (d : disk) : assoc q (put p c d) = if String.eqb q p then Some c else assoc q d.
Proof. unfold put. cbn [assoc]. rewrite assoc_without. destruct (String.eqb q p); reflexivity. Qed.

Section Repo.
  Variables (fail : call -> nat -> bool) (partial : nat -> option string) (leaves : nat -> bool) (fresh : nat -> string) (listed : list string).
  Notation attempt := (attempt fail). Notation remove := (remove fail). Notation write_key := (write_key fail partial fresh). Notation clone := (clone fail leaves). Notation rmtree := (rmtree fail).
  Notation fetch := (fetch fail partial leaves fresh listed). Notation git_all := (git_all fail). Notation ssh_wrapped := (ssh_wrapped fail partial fresh). Notation load := (load fail partial leaves fresh listed).

  Lemma attempt_cases c w : exists w', w_disk w' = w_disk w /\ w_git w' = w_git w /\ w_calls w' = S (w_calls w) /\
    attempt c w = (if fail c (w_calls w) then Raised (FCall c) else Done tt, w').
  Proof. exists (World (w_disk w) (S (w_calls w)) (w_git w)). unfold Repo_Model.attempt, andthen, ask, raise, ret. cbn. destruct (fail c (w_calls w)); auto. Qed.
  Lemma remove_cases p w r w' : remove p w = (r, w') -> w_git w' = w_git w /\
    ((r = Done tt /\ w_disk w' = without p (w_disk w) /\ assoc p (w_disk w) <> None)
     \/ (r = Raised FMissing /\ w' = w /\ assoc p (w_disk w) = None)
     \/ (r = Raised (FCall CRemove) /\ w_disk w' = w_disk w /\ fail CRemove (w_calls w) = true)).
  Proof.
    unfold Repo_Model.remove, andthen, exists_path, raise. destruct (assoc p (w_disk w)) eqn:A.
    - destruct (attempt_cases CRemove w) as (w1 & D & G & _ & ->). destruct (fail CRemove (w_calls w)) eqn:F; intros H; injection H as <- <-.
      + split; [exact G|]. right. right. auto.
      + cbn [on_disk set_disk w_disk w_git]. split; [exact G|]. left. rewrite D. split; [reflexivity|]. split; [reflexivity|]. intros X; discriminate X.
    - intros H. injection H as <- <-. split; [reflexivity|]. right. left. auto.
  Qed.
  Lemma write_key_eq k path w : write_key k path w =
    let p := match path with Some p => p | None => fresh (w_calls w) end in
    if fail COpen (w_calls w) then (Raised (FCall COpen), World (w_disk w) (S (w_calls w)) (w_git w))
    else if fail CWrite (S (w_calls w)) then (Raised (FCall CWrite), World (put p (Key (partial (S (w_calls w)))) (put p (Key None) (w_disk w))) (S (S (w_calls w))) (w_git w))
    else (do _ <- handle (attempt CChmod) (fun _ => remove p) ; ret p) (World (put p (Key (Some k)) (put p (Key None) (w_disk w))) (S (S (w_calls w))) (w_git w)).
  Proof.
    destruct w as [d n g]. unfold Repo_Model.write_key. cbv beta iota zeta delta [andthen ask on_disk set_disk w_disk w_calls w_git fst snd raise]. destruct (fail COpen n); [reflexivity|]. destruct (fail CWrite (S n)); reflexivity.
  Qed.
  Lemma write_key_cases k path w r w' : write_key k path w = (r, w') -> w_git w' = w_git w /\ exists p, (forall q, path = Some q -> p = q) /\ (forall q, q <> p -> assoc q (w_disk w') = assoc q (w_disk w)) /\
    ((r = Done p /\ (key_text w' p k \/ assoc p (w_disk w') = None /\ exists n, fail CChmod n = true))
     \/ (r = Raised (FCall COpen) /\ w_disk w' = w_disk w)
     \/ (r = Raised (FCall CWrite) /\ key_file w' p /\ exists n, fail CWrite n = true)
     \/ (r = Raised (FCall CRemove) /\ key_text w' p k /\ exists n, fail CRemove n = true)).
  Proof.
    rewrite write_key_eq. set (p := match path with Some p => p | None => fresh (w_calls w) end).
    assert (P : forall q, path = Some q -> p = q) by (intros q ->; reflexivity).
    destruct (fail COpen (w_calls w)).
    { intros H. injection H as <- <-. split; [reflexivity|]. exists p. split; [exact P|]. split; [reflexivity|]. right. left. auto. }
    destruct (fail CWrite (S (w_calls w))) eqn:FW.
    { intros H. injection H as <- <-. split; [reflexivity|]. exists p. split; [exact P|]. cbn [w_disk]. split.
      - intros q Q. rewrite !assoc_put. destruct (String.eqb_spec q p); [contradiction|reflexivity].
      - right. right. left. split; [reflexivity|]. split; [exists (partial (S (w_calls w))); cbn [w_disk]; rewrite assoc_put, String.eqb_refl; reflexivity|eauto]. }
    cbv zeta. set (w1 := World _ _ _).
    assert (D1 : forall q, q <> p -> assoc q (w_disk w1) = assoc q (w_disk w)) by (intros q Q; cbn [w1 w_disk]; rewrite !assoc_put; destruct (String.eqb_spec q p); [contradiction|reflexivity]).
    assert (K1 : key_text w1 p k) by (unfold key_text; cbn [w1 w_disk]; rewrite assoc_put, String.eqb_refl; reflexivity).
    unfold andthen, handle. destruct (attempt_cases CChmod w1) as (w2 & D & G & _ & ->). assert (GW : w_git w2 = w_git w) by (rewrite G; reflexivity).
    destruct (fail CChmod (w_calls w1)) eqn:FC.
    - destruct (remove p w2) as [r2 w3] eqn:R. apply remove_cases in R. destruct R as [G3 R]. destruct R as [(-> & D3 & _)|[(-> & -> & A)|(-> & D3 & FR)]].
      + cbn [ret]. intros H. injection H as <- <-. split; [congruence|]. exists p. split; [exact P|]. rewrite D3, D. split.
        * intros q Q. rewrite assoc_without. destruct (String.eqb_spec q p); [contradiction|]. apply D1; exact Q.
        * left. split; [reflexivity|]. right. split; [rewrite assoc_without, String.eqb_refl; reflexivity|eauto].
      + exfalso. unfold key_text in K1. rewrite D in A. congruence.
      + intros H. injection H as <- <-. split; [congruence|]. exists p. split; [exact P|]. rewrite D3, D. split; [exact D1|]. right. right. right. split; [reflexivity|]. split; [unfold key_text; rewrite D3, D; exact K1|eauto].
    - cbn [ret]. intros H. injection H as <- <-. split; [exact GW|]. exists p. split; [exact P|]. rewrite D. split; [exact D1|]. left. split; [reflexivity|]. left. unfold key_text. rewrite D. exact K1.
  Qed.
  Lemma git_all_cases l w r w' : git_all l w = (r, w') -> w_disk w' = w_disk w /\ exists done, w_git w' = w_git w ++ map (fun c => (c, map fst (w_disk w))) done /\
    ((r = Done tt /\ done = l) \/ (r = Raised (FCall CGit) /\ exists rest, l = done ++ rest)).
  Proof.
    revert w r w'. induction l as [|c l IH]; intros w r w' H; cbn [Repo_Model.git_all] in H.
    - injection H as <- <-. split; [reflexivity|]. exists []. cbn. rewrite app_nil_r. auto.
    - unfold andthen at 1 in H. unfold git in H. unfold andthen at 1 in H. destruct (attempt_cases CGit w) as (w1 & D & G & _ & A). rewrite A in H. destruct (fail CGit (w_calls w)).
      + injection H as <- <-. split; [exact D|]. exists []. cbn. rewrite app_nil_r. split; [exact G|]. right. split; [reflexivity|]. now exists (c :: l).
      + cbn [w_disk w_calls w_git] in H. apply IH in H. cbn [w_disk w_git] in H. destruct H as (D' & done & G' & C). split; [congruence|]. exists (c :: done). rewrite G', G, <- app_assoc, D. split; [reflexivity|].
        destruct C as [[-> ->]|(-> & rest & ->)]; [left; auto|right; split; [reflexivity|exists rest; reflexivity]].
  Qed.
  Lemma clone_cases dest w r w' : clone dest w = (r, w') -> w_git w' = w_git w /\ (forall q, q <> dest -> assoc q (w_disk w') = assoc q (w_disk w)) /\ (assoc dest (w_disk w') = Some Tree \/ assoc dest (w_disk w') = assoc dest (w_disk w)) /\
    ((r = Done tt /\ cloned w' dest) \/ r = Raised (FCall CClone)).
  Proof.
    assert (E : clone dest w = if fail CClone (w_calls w) then (Raised (FCall CClone), World (if leaves (w_calls w) then put dest Tree (w_disk w) else w_disk w) (S (w_calls w)) (w_git w)) else (Done tt, World (put dest Tree (w_disk w)) (S (w_calls w)) (w_git w))).
    { destruct w as [d n g]. unfold Repo_Model.clone. cbv beta iota zeta delta [andthen ask on_disk set_disk w_disk w_calls w_git fst snd raise]. destruct (fail CClone n); reflexivity. }
    rewrite E. destruct (fail CClone (w_calls w)); intros H; injection H as <- <-; cbn [w_disk w_git]; (split; [reflexivity|]).
    - destruct (leaves (w_calls w)).
      + split; [intros q Q; rewrite assoc_put; destruct (String.eqb_spec q dest); [contradiction|reflexivity]|]. rewrite assoc_put, String.eqb_refl. auto.
      + split; [reflexivity|]. auto.
    - split; [intros q Q; rewrite assoc_put; destruct (String.eqb_spec q dest); [contradiction|reflexivity]|].
      unfold cloned. cbn [w_disk]. rewrite assoc_put, String.eqb_refl. auto.
  Qed.
  Lemma options_cases b w : exists o w', branch_options fail listed b w = (Done o, w') /\ w_disk w' = w_disk w /\ w_git w' = w_git w.
  Proof. unfold branch_options, handle, andthen. destruct (attempt_cases CList w) as (w1 & D & G & _ & ->). destruct (fail CList (w_calls w)); unfold ret; do 2 eexists; (split; [reflexivity|auto]). Qed.
  Lemma rmtree_cases p w r w' : rmtree p w = (r, w') -> (r = Done tt /\ w_disk w' = without p (w_disk w)) \/ (r = Raised (FCall CRmtree) /\ w_disk w' = w_disk w /\ fail CRmtree (w_calls w) = true).
  Proof. unfold Repo_Model.rmtree, andthen. destruct (attempt_cases CRmtree w) as (w1 & D & G & _ & ->). destruct (fail CRmtree (w_calls w)) eqn:F; cbn; intros H; injection H as <- <-; [right; auto|left; cbn [w_disk]; rewrite D; auto]. Qed.

  (** ** Keys *)
  Definition writes_work : Prop := forall n, fail CWrite n = false.
  Definition removals_work : Prop := forall n, fail CRemove n = false.
  Lemma none_new (w w' : world) p : (forall q, q <> p -> assoc q (w_disk w') = assoc q (w_disk w)) -> assoc p (w_disk w') = None -> forall q, key_file w' q -> key_file w q.
  Proof. intros D N q [t K]. exists t. destruct (String.eqb_spec q p) as [->|Q]; [congruence|]. now rewrite <- D. Qed.

  (** C67: whatever happens, an operation on the branches leaves no key file that was not there *)
  Theorem C67_operation_leaves_no_key file key o w r w' : writes_work -> removals_work -> ssh_wrapped file key o w = (r, w') -> forall q, key_file w' q -> key_file w q.
  Proof.
    intros WW RW. assert (PLAIN : git_all (commands o) w = (r, w') -> forall q, key_file w' q -> key_file w q).
    { intros H q [t K]. apply git_all_cases in H. destruct H as [D _]. exists t. congruence. }
    unfold Repo_Model.ssh_wrapped. destruct key as [k|]; [|exact PLAIN]. destruct (String.eqb k ""); [exact PLAIN|]. destruct file as [[p|]|]; [|exact PLAIN|intros H; injection H as <- <-; auto].
    unfold andthen at 1. destruct (write_key k (Some p) w) as [r1 w1] eqn:W. apply write_key_cases in W. destruct W as (_ & p' & P & D & C). rewrite (P p eq_refl) in *. clear P p'.
    destruct C as [(-> & _)|[(-> & E)|[(_ & _ & n & F)|(_ & _ & n & F)]]]; [|intros H; injection H as <- <-; intros q [t K]; exists t; congruence|rewrite WW in F; discriminate F|rewrite RW in F; discriminate F].
    unfold handle, andthen. destruct (git_all (commands o) w1) as [r2 w2] eqn:G. apply git_all_cases in G. destruct G as (D2 & done & _ & C2).
    assert (FIN : forall w3 r4 w4, w_disk w3 = w_disk w2 -> remove p w3 = (r4, w4) -> forall q, key_file w4 q -> key_file w q).
    { intros w3 r4 w4 D3 R. apply remove_cases in R. destruct R as [_ [(_ & D4 & _)|[(_ & -> & N)|(_ & _ & F)]]]; [| |rewrite RW in F; discriminate F].
      - apply (none_new w w4 p); rewrite D4; [intros q Q; rewrite assoc_without; destruct (String.eqb_spec q p); [contradiction|]; rewrite D3, D2; apply D; exact Q|rewrite assoc_without, String.eqb_refl; reflexivity].
      - apply (none_new w w3 p); [intros q Q; rewrite D3, D2; apply D; exact Q|exact N]. }
    destruct C2 as [[-> _]|[-> _]].
    - destruct (remove p w2) as [r3 w3] eqn:R. pose proof (FIN w2 r3 w3 eq_refl R) as K. destruct r3 as [[]|e]; [intros H; injection H as <- <-; exact K|]. apply remove_cases in R. destruct R as [_ [(X & _)|[(X & -> & N)|(_ & _ & F)]]]; [discriminate X| |rewrite RW in F; discriminate F].
      destruct (remove p w2) as [r4 w4] eqn:R4. pose proof (FIN w2 r4 w4 eq_refl R4) as K4. destruct r4 as [[]|e']; cbn [raise]; intros H; injection H as <- <-; exact K4.
    - destruct (remove p w2) as [r3 w3] eqn:R. pose proof (FIN w2 r3 w3 eq_refl R) as K. destruct r3 as [[]|e]; cbn [raise]; intros H; injection H as <- <-; exact K.
  Qed.
  (** ... and neither does a fetch *)
  Theorem C67_fetch_leaves_no_key url dest branch key w r w' : writes_work -> removals_work -> fetch url dest branch key w = (r, w') -> forall q, key_file w' q -> key_file w q.
  Proof.
    intros WW RW. unfold Repo_Model.fetch. destruct (starts_with "git@" url).
    - destruct key as [k|]; [|intros H; injection H as <- <-; auto]. unfold fetch_ssh. unfold andthen at 1. destruct (write_key k None w) as [r1 w1] eqn:W. apply write_key_cases in W. destruct W as (_ & p & _ & D & C).
      destruct C as [(-> & _)|[(-> & E)|[(_ & _ & n & F)|(_ & _ & n & F)]]]; [|intros H; injection H as <- <-; intros q [t K]; exists t; congruence|rewrite WW in F; discriminate F|rewrite RW in F; discriminate F].
      (* what the clone and the removal leave *)
      assert (FIN : forall w2 w3 r4 w4, (forall q, q <> dest -> assoc q (w_disk w2) = assoc q (w_disk w1)) -> (assoc dest (w_disk w2) = Some Tree \/ assoc dest (w_disk w2) = assoc dest (w_disk w1)) -> w_disk w3 = w_disk w2 -> remove p w3 = (r4, w4) -> forall q, key_file w4 q -> key_file w q).
      { intros w2 w3 r4 w4 D2 T D3 R. assert (OTHER : forall q t, q <> p -> assoc q (w_disk w3) = Some (Key t) -> assoc q (w_disk w) = Some (Key t)).
        { intros q t Q K. rewrite D3 in K. destruct (String.eqb_spec q dest) as [->|NQ]; [destruct T as [T|T]; [congruence|]; rewrite <- D by exact Q; congruence|]. rewrite <- D by exact Q. rewrite <- D2 by exact NQ. exact K. }
        apply remove_cases in R. destruct R as [_ [(_ & D4 & _)|[(_ & -> & N)|(_ & _ & F)]]]; [| |rewrite RW in F; discriminate F].
        - intros q [t K]. rewrite D4, assoc_without in K. destruct (String.eqb_spec q p) as [->|Q]; [discriminate K|]. exists t. apply OTHER; assumption.
        - intros q [t K]. destruct (String.eqb_spec q p) as [->|Q]; [congruence|]. exists t. apply OTHER; assumption. }
      unfold andthen at 1. unfold handle at 1. unfold andthen at 1. destruct (clone dest w1) as [r2 w2] eqn:CL. apply clone_cases in CL. destruct CL as (_ & D2 & T2 & C2).
      assert (ERR : forall w3 (e : fault) r w', w_disk w3 = w_disk w2 ->
        (match (do ok <- handle (do _ <- remove p ; ret true) (fun _ => ret false) ; if ok : bool then @raise (list string) e else raise FUnbound) w3 with (Done a, w5) => ret (a, Some p) w5 | (Raised f, w5) => (Raised f, w5) end) = (r, w') -> forall q, key_file w' q -> key_file w q).
      { intros w3 e r0 w0 D3. unfold andthen, handle. destruct (remove p w3) as [r4 w4] eqn:R. pose proof (FIN w2 w3 r4 w4 D2 T2 D3 R) as K. destruct r4 as [[]|e4]; unfold ret, raise; intros H; injection H as <- <-; exact K. }
      destruct C2 as [[-> _]| ->].
      + unfold andthen at 1. destruct (options_cases branch w2) as (o & w3 & -> & D3 & _). unfold andthen at 1. destruct (remove p w3) as [r4 w4] eqn:R. pose proof (FIN w2 w3 r4 w4 D2 T2 D3 R) as K. destruct r4 as [[]|e4].
        * cbn [ret]. intros H. injection H as <- <-. exact K.
        * apply remove_cases in R. destruct R as [_ [(X & _)|[(_ & -> & N)|(_ & _ & F)]]]; [discriminate X| |rewrite RW in F; discriminate F]. apply ERR. exact D3.
      + apply ERR. reflexivity.
    - unfold fetch_https, andthen, is_dir. set (there := match assoc dest (w_disk w) with Some Tree => true | _ => false end).
      assert (FIN : forall w1, (forall q t, assoc q (w_disk w1) = Some (Key t) -> assoc q (w_disk w) = Some (Key t)) -> match clone dest w1 with (Done _, w2) => match branch_options fail listed branch w2 with (Done o, w3) => ret (o, None) w3 | (Raised f, w3) => (Raised f, w3) end | (Raised f, w2) => (Raised f, w2) end = (r, w') -> forall q, key_file w' q -> key_file w q).
      { intros w1 D. destruct (clone dest w1) as [r2 w2] eqn:CL. apply clone_cases in CL. destruct CL as (_ & D2 & T2 & C2). assert (K : forall q t, assoc q (w_disk w2) = Some (Key t) -> assoc q (w_disk w) = Some (Key t)).
        { intros q t K. apply D. destruct (String.eqb_spec q dest) as [->|N]; [destruct T2; congruence|]. rewrite <- D2 by exact N. exact K. }
        destruct C2 as [[-> _]| ->]; [|intros H; injection H as <- <-; intros q [t X]; exists t; auto]. destruct (options_cases branch w2) as (o & w3 & -> & D3 & _). cbn [ret]. intros H. injection H as <- <-. intros q [t X]. exists t. apply K. congruence. }
      destruct there; [|apply FIN; auto]. destruct (rmtree dest w) as [r1 w1] eqn:R. apply rmtree_cases in R. destruct R as [(-> & D)|(-> & D & _)].
      + apply FIN. intros q t. rewrite D, assoc_without. destruct (String.eqb q dest); [discriminate|auto].
      + intros H. injection H as <- <-. intros q [t X]. exists t. congruence.
  Qed.
  (** C67: when an operation with a key returns, all its commands were run with the key in place and the key is gone *)
  Theorem C67_commands_have_the_key p k o w w' : k <> "" -> ssh_wrapped (Some (Some p)) (Some k) o w = (Done tt, w') ->
    (exists l, w_git w' = w_git w ++ l /\ map fst l = commands o /\ forall c ps, In (c, ps) l -> In p ps) /\ assoc p (w_disk w') = None.
  Proof.
    intros K. unfold Repo_Model.ssh_wrapped. apply String.eqb_neq in K. rewrite K. unfold andthen at 1. destruct (write_key k (Some p) w) as [r1 w1] eqn:W. apply write_key_cases in W. destruct W as (G1 & p' & P & D & C). rewrite (P p eq_refl) in *. clear P p'.
    destruct C as [(-> & C)|[(-> & _)|[(-> & _)|(-> & _)]]]; try discriminate. unfold handle, andthen. destruct (git_all (commands o) w1) as [r2 w2] eqn:G. apply git_all_cases in G. destruct G as (D2 & done & G2 & C2).
    destruct C2 as [[-> ->]|[-> _]].
    - destruct (remove p w2) as [r3 w3] eqn:R. apply remove_cases in R. destruct R as [G3 R]. destruct R as [(-> & D3 & A)|[(-> & -> & N)|(-> & D3 & F)]].
      + intros H. injection H as <-. split; [|rewrite D3, assoc_without, String.eqb_refl; reflexivity]. eexists. rewrite G3, G2, G1. split; [reflexivity|]. split; [rewrite map_map; cbn [fst]; apply map_id|].
        intros c ps I. apply in_map_iff in I. destruct I as (c0 & X & _). injection X as _ <-. rewrite D2 in A. destruct (assoc p (w_disk w1)) as [ct|] eqn:AS; [|contradiction]. clear - AS. induction (w_disk w1) as [|[q x] d IH]; [discriminate AS|]. cbn [assoc] in AS. cbn [map fst]. destruct (String.eqb_spec p q) as [->|]; [now left|right; auto].
      + destruct (remove p w2) as [r4 w4] eqn:R4. unfold raise. destruct r4 as [[]|e]; discriminate.
      + destruct (remove p w3) as [r4 w4] eqn:R4. unfold raise. destruct r4 as [[]|e]; discriminate.
    - destruct (remove p w2) as [r3 w3] eqn:R. unfold raise. destruct r3 as [[]|e]; discriminate.
  Qed.
  (** C67: an operation changes no other remote branch than the one it names *)
  Theorem C67_only_the_branch file key o w r w' : ssh_wrapped file key o w = (r, w') -> exists l, w_git w' = w_git w ++ l /\ (forall c ps b, In (c, ps) l -> changes c b -> b = target o) /\ (r = Done tt -> exists c ps, In (c, ps) l /\ changes c (target o)).
  Proof.
    intros H. assert (CM : forall c b, In c (commands o) -> changes c b -> b = target o).
    { intros c b I [->| ->]; destruct o; cbn [commands In target] in *; repeat (destruct I as [I|I]); try discriminate I; try contradiction; congruence. }
    assert (LAST : exists c, In c (commands o) /\ changes c (target o)) by (destruct o; cbn [commands target]; [exists (GPush b)|exists (GDelete b)|exists (GPush b)|exists (GPush to)|exists (GPush to)]; (split; [cbn; auto 6|unfold changes; auto])).
    assert (W : exists done ps, w_git w' = w_git w ++ map (fun c => (c, ps)) done /\ (forall c, In c done -> In c (commands o)) /\ (r = Done tt -> done = commands o)).
    { assert (PLAIN : forall w r w', git_all (commands o) w = (r, w') -> exists done ps, w_git w' = w_git w ++ map (fun c => (c, ps)) done /\ (forall c, In c done -> In c (commands o)) /\ (r = Done tt -> done = commands o)).
      { clear. intros w r w' H. apply git_all_cases in H. destruct H as (_ & done & G & C). exists done, (map fst (w_disk w)). split; [exact G|]. destruct C as [[-> ->]|(-> & rest & ->)]; [auto|]. split; [intros c I; apply in_app_iff; now left|discriminate]. }
      unfold Repo_Model.ssh_wrapped in H. destruct key as [k|]; [|eauto]. destruct (String.eqb k ""); [eauto|]. destruct file as [[p|]|]; [|eauto|injection H as <- <-; exists [], []; cbn; rewrite app_nil_r; split; [reflexivity|]; split; [intros c []|discriminate]].
      unfold andthen at 1 in H. destruct (write_key k (Some p) w) as [r1 w1] eqn:WK. apply write_key_cases in WK. destruct WK as (G1 & _). destruct r1 as [q|e]; [|injection H as <- <-; exists [], []; cbn; rewrite app_nil_r; split; [exact G1|]; split; [intros c []|discriminate]].
      unfold handle, andthen in H. destruct (git_all (commands o) w1) as [r2 w2] eqn:GA. destruct (PLAIN _ _ _ GA) as (done & ps & G2 & I2 & E2). exists done, ps.
      assert (RM : forall w3 r4 w4, remove p w3 = (r4, w4) -> w_git w4 = w_git w3) by (intros w3 r4 w4 R; apply remove_cases in R; apply R).
      destruct r2 as [[]|e].
      - destruct (remove p w2) as [r3 w3] eqn:R. pose proof (RM _ _ _ R) as G3. destruct r3 as [[]|e3]; [injection H as <- <-; rewrite G3, G2, G1; auto|]. destruct (remove p w3) as [r4 w4] eqn:R4. pose proof (RM _ _ _ R4) as G4. unfold raise in H. destruct r4; injection H as <- <-; rewrite G4, G3, G2, G1; (split; [reflexivity|split; [exact I2|auto]]).
      - destruct (remove p w2) as [r3 w3] eqn:R. pose proof (RM _ _ _ R) as G3. unfold raise in H. destruct r3; injection H as <- <-; rewrite G3, G2, G1; (split; [reflexivity|split; [exact I2|discriminate]]). }
    destruct W as (done & ps & G & I & E). eexists. split; [exact G|]. split.
    - intros c ps' b J CH. apply in_map_iff in J. destruct J as (c0 & X & J). injection X as <- _. eauto.
    - intros X. destruct LAST as (c & J & CH). exists c, ps. split; [|exact CH]. apply in_map_iff. exists c. split; [reflexivity|]. rewrite (E X). exact J.
  Qed.
  (** a write that fails leaves the key file *)
  Theorem C67_failed_write_refuted p k o w : k <> "" -> fail COpen (w_calls w) = false -> fail CWrite (S (w_calls w)) = true ->
    exists w', ssh_wrapped (Some (Some p)) (Some k) o w = (Raised (FCall CWrite), w') /\ key_file w' p /\ (partial (S (w_calls w)) = Some k -> key_text w' p k).
  Proof.
    intros K A B. unfold Repo_Model.ssh_wrapped. apply String.eqb_neq in K. rewrite K. unfold andthen at 1. rewrite write_key_eq. cbv zeta. rewrite A, B.
    eexists. split; [reflexivity|]. unfold key_file, key_text. cbn [w_disk]. rewrite assoc_put, String.eqb_refl. split; [eauto|]. intros ->. reflexivity.
  Qed.
  (** if the rights of the key file cannot be set, an operation that did everything it should raises *)
  Theorem C67_done_but_raises_refuted p k o w : k <> "" -> (forall n, fail CChmod n = true) -> (forall c n, c <> CChmod -> fail c n = false) ->
    exists w' l, ssh_wrapped (Some (Some p)) (Some k) o w = (Raised FMissing, w') /\ w_git w' = w_git w ++ l /\ map fst l = commands o.
  Proof.
    intros K A B. unfold Repo_Model.ssh_wrapped. apply String.eqb_neq in K. rewrite K. unfold andthen at 1. destruct (write_key k (Some p) w) as [r1 w1] eqn:W. pose proof W as W'. apply write_key_cases in W. destruct W as (G1 & p' & P & D & C). rewrite (P p eq_refl) in *. clear P p'.
    assert (R1 : r1 = Done p /\ assoc p (w_disk w1) = None).
    { revert W'. rewrite write_key_eq. cbv zeta. rewrite (B COpen), (B CWrite) by discriminate.
      unfold andthen, handle. set (w0 := World _ _ _). destruct (attempt_cases CChmod w0) as (w2 & D2 & _ & _ & ->). rewrite A. destruct (remove p w2) as [r3 w3] eqn:R. apply remove_cases in R. destruct R as [_ [(-> & D3 & _)|[(-> & -> & N)|(-> & _ & F)]]].
      - cbn [ret]. intros H. injection H as <- <-. split; [reflexivity|]. rewrite D3, assoc_without, String.eqb_refl. reflexivity.
      - exfalso. rewrite D2 in N. cbn [w0 w_disk] in N. rewrite assoc_put, String.eqb_refl in N. discriminate N.
      - rewrite B in F by discriminate. discriminate F. }
    destruct R1 as [-> N1]. unfold handle, andthen. destruct (git_all (commands o) w1) as [r2 w2] eqn:G. pose proof G as GG. apply git_all_cases in G. destruct G as (D2 & done & G2 & C2).
    assert (OKG : forall l w, exists w', git_all l w = (Done tt, w')).
    { clear - B. induction l as [|c l IH]; intros w; [eexists; reflexivity|]. cbn [Repo_Model.git_all]. unfold andthen at 1, git. unfold andthen. destruct (attempt_cases CGit w) as (w1 & _ & _ & _ & ->). rewrite B by discriminate. apply IH. }
    destruct (OKG (commands o) w1) as [w2' X]. rewrite GG in X. injection X as -> <-. destruct C2 as [[_ ->]|[X _]]; [|discriminate X].
    assert (R : remove p w2 = (Raised FMissing, w2)) by (unfold Repo_Model.remove, andthen, exists_path; rewrite D2, N1; reflexivity). rewrite R, R. eexists. eexists. split; [reflexivity|]. split; [rewrite G2, G1; reflexivity|]. rewrite map_map. apply map_id.
  Qed.

  (** if the rights of the key file cannot be set, a fetch that cloned the repository raises an error about a variable of its own, and the clone stays *)
  Theorem C67_fetch_reason_refuted r dest branch k w : dest <> fresh (w_calls w) -> (forall n, fail CChmod n = true) -> (forall c n, c <> CChmod -> fail c n = false) ->
    exists w', fetch ("git@" ++ r) dest branch (Some k) w = (Raised FUnbound, w') /\ cloned w' dest.
  Proof.
    intros N A B. unfold Repo_Model.fetch. change (starts_with "git@" ("git@" ++ r)) with true. cbv iota. unfold fetch_ssh. unfold andthen at 1. rewrite write_key_eq. cbv zeta. rewrite (B COpen), (B CWrite) by discriminate. set (p := fresh (w_calls w)) in *. set (w0 := World _ _ _).
    assert (K : exists w1, (do _ <- handle (attempt CChmod) (fun _ => remove p) ; ret p) w0 = (Done p, w1) /\ assoc p (w_disk w1) = None).
    { unfold andthen at 1, handle. destruct (attempt_cases CChmod w0) as (w2 & D2 & _ & _ & ->). rewrite A. destruct (remove p w2) as [r3 w3] eqn:R. apply remove_cases in R. destruct R as [_ [(-> & D3 & _)|[(-> & -> & X)|(-> & _ & F)]]].
      - eexists. split; [reflexivity|]. rewrite D3, assoc_without, String.eqb_refl. reflexivity.
      - exfalso. rewrite D2 in X. cbn [w0 w_disk] in X. rewrite assoc_put, String.eqb_refl in X. discriminate X.
      - rewrite B in F by discriminate. discriminate F. }
    destruct K as (w1 & -> & N1). unfold andthen at 1. unfold handle at 1. unfold andthen at 1. destruct (clone dest w1) as [r2 w2] eqn:CL. pose proof CL as CL'. apply clone_cases in CL. destruct CL as (_ & D2 & _ & C2).
    assert (P2 : assoc p (w_disk w2) = None) by (rewrite D2 by congruence; exact N1).
    destruct C2 as [[-> C]| ->]; [|exfalso; revert CL'; unfold Repo_Model.clone, andthen; unfold ask; rewrite B by discriminate; discriminate].
    unfold andthen at 1. destruct (options_cases branch w2) as (o & w3 & -> & D3 & _). assert (R : remove p w3 = (Raised FMissing, w3)) by (unfold Repo_Model.remove, andthen, exists_path; rewrite D3, P2; reflexivity).
    unfold andthen, handle. rewrite R. rewrite R. exists w3. split; [reflexivity|]. unfold cloned in *. congruence.
  Qed.
  (** ** Clones *)
  (** C67: when a project has been loaded its clone is gone *)
  Theorem C67_clone_deleted url dest branch key kind w w' : load url dest branch key kind w = (Done tt, w') -> ~ cloned w' dest.
  Proof.
    unfold Repo_Model.load, andthen. destruct (fetch url dest branch key w) as [[x|f] w1]; [|discriminate]. destruct (attempt_cases CRead w1) as (w2 & _ & _ & _ & ->). destruct (fail CRead (w_calls w1)); [discriminate|].
    destruct (String.eqb kind "metricflow" || String.eqb kind "metrics_layer"); [|discriminate]. destruct (attempt_cases CRead w2) as (w3 & _ & _ & _ & ->). destruct (fail CRead (w_calls w2)); [discriminate|].
    unfold delete, andthen, is_dir. destruct (assoc dest (w_disk w3)) as [[t|]|] eqn:A; cbn [ret]; try (intros H; injection H as <-; unfold cloned; congruence).
    intros H. apply rmtree_cases in H. destruct H as [(_ & D)|(X & _)]; [|discriminate X]. unfold cloned. rewrite D, assoc_without, String.eqb_refl. discriminate.
  Qed.
  Theorem C67_load_leaves_no_key url dest branch key kind w r w' : writes_work -> removals_work -> load url dest branch key kind w = (r, w') -> forall q, key_file w' q -> key_file w q.
  Proof.
    intros WW RW. unfold Repo_Model.load. unfold andthen at 1. destruct (fetch url dest branch key w) as [r1 w1] eqn:F. pose proof (C67_fetch_leaves_no_key _ _ _ _ _ _ _ WW RW F) as K.
    destruct r1 as [x|f]; [|intros H; injection H as <- <-; exact K]. assert (SAME : forall w2, w_disk w2 = w_disk w1 -> forall q, key_file w2 q -> key_file w q) by (intros w2 D q [t X]; apply K; exists t; congruence).
    unfold andthen. destruct (attempt_cases CRead w1) as (w2 & D2 & _ & _ & ->). destruct (fail CRead (w_calls w1)); [unfold raise, ret; intros H; injection H as <- <-; apply SAME; congruence|]. destruct (String.eqb kind "metricflow" || String.eqb kind "metrics_layer"); [|unfold raise, ret; intros H; injection H as <- <-; apply SAME; congruence].
    destruct (attempt_cases CRead w2) as (w3 & D3 & _ & _ & ->). assert (E3 : w_disk w3 = w_disk w1) by congruence. destruct (fail CRead (w_calls w2)); [unfold raise, ret; intros H; injection H as <- <-; apply SAME; congruence|].
    unfold delete, andthen, is_dir. destruct (match assoc dest (w_disk w3) with Some Tree => true | _ => false end); [|unfold raise, ret; intros H; injection H as <- <-; apply SAME; congruence].
    intros H. apply rmtree_cases in H. destruct H as [(_ & D)|(_ & D & _)]; [|apply SAME; congruence]. intros q [t X]. rewrite D, assoc_without in X. destruct (String.eqb q dest); [discriminate X|]. apply (SAME w3 E3). exists t. exact X.
  Qed.
  (** a project that cannot be read, or has an unknown mode, leaves its clone *)
  Theorem C67_clone_left_refuted url dest branch key kind w x w1 : fetch url dest branch key w = (Done x, w1) ->
    (fail CRead (w_calls w1) = true \/ (kind <> "metricflow" /\ kind <> "metrics_layer")) -> cloned w1 dest ->
    exists e w', load url dest branch key kind w = (Raised e, w') /\ cloned w' dest.
  Proof.
    intros F B C. unfold Repo_Model.load. unfold andthen at 1. rewrite F. unfold andthen. destruct (attempt_cases CRead w1) as (w2 & D & _ & _ & ->). destruct (fail CRead (w_calls w1)); [do 2 eexists; split; [reflexivity|unfold cloned; congruence]|].
    destruct B as [B|[B1 B2]]; [discriminate B|]. apply String.eqb_neq in B1, B2. rewrite B1, B2. cbn [orb]. unfold raise. do 2 eexists. split; [reflexivity|unfold cloned; congruence].
  Qed.
End Repo.

(** ** Branches *)
(** what git ls-remote prints: a hash, a tab and a reference for every reference *)
Definition tab : ascii := ascii_of_nat 9.
Definition line (r : string * string) : string := (fst r ++ String tab (snd r))%string.
Definition listing (refs : list (string * string)) : string := join_with (String newline "") (map line refs).
Definition branch_of (ref : string) : list string := match strip_prefix "refs/heads/" ref with Some b => [b] | None => [] end.
Lemma find_after_none sep s : contains sep s = false -> find_after sep s = None.
Proof.
  induction s as [|c s IH]; cbn [contains find_after]; unfold starts_with; destruct (strip_prefix sep _); cbn [orb]; try discriminate; auto.
Qed.
Lemma last_piece_none n sep s : contains sep s = false -> last_piece n sep s = s.
Proof. intros H. destruct n; cbn [last_piece]; [reflexivity|]. now rewrite find_after_none. Qed.
Lemma find_after_skip c sep a s : has_char c a = false -> find_after (String c sep) (a ++ String c sep ++ s) = Some s.
Proof.
  induction a as [|x a IH]; intros H.
  - cbn [append]. change (find_after (String c sep) ((String c sep) ++ s)%string = Some s). destruct (String c sep ++ s)%string eqn:E; [discriminate E|]. rewrite <- E. destruct (String c sep ++ s)%string eqn:E2; [discriminate E2|]. cbn [find_after]. rewrite <- E2, strip_prefix_app. reflexivity.
  - cbn [has_char] in H. apply orb_false_iff in H. destruct H as [X H]. cbn [append find_after strip_prefix]. destruct (Ascii.eqb c x) eqn:Y; [apply Ascii.eqb_eq in Y; subst; rewrite Ascii.eqb_refl in X; discriminate X|]. apply IH. exact H.
Qed.
Lemma split_join c l : l <> [] -> (forall x, In x l -> has_char c x = false) -> split_char c (join_with (String c "") l) = l.
Proof.
  induction l as [|x l IH]; intros N H; [contradiction|]. destruct l as [|y l]; [cbn [join_with]; apply split_char_nochar; apply H; now left|].
  assert (J : join_with (String c "") (x :: y :: l) = (x ++ String c (join_with (String c "") (y :: l)))%string) by reflexivity. rewrite J, split_char_app by (apply H; now left). f_equal. apply IH; [discriminate|]. intros z Z. apply H. now right.
Qed.
(** C67: the branches offered are the branches of the remote *)
Theorem C67_branches refs : refs <> [] ->
  (forall h r, In (h, r) refs -> has_char "/" h = false /\ has_char newline h = false /\ has_char newline r = false) ->
  (forall h r, In (h, r) refs -> match strip_prefix "refs/heads/" r with Some b => contains "/heads/" b = false | None => contains "/heads/" r = false end) ->
  parse_ls_remote (listing refs) = flat_map (fun r => branch_of (snd r)) refs.
Proof.
  intros N C H. unfold parse_ls_remote, listing. rewrite split_join.
  - rewrite flat_map_concat_map, flat_map_concat_map, map_map. f_equal. apply map_ext_in. intros [h r] I. destruct (C h r I) as (A & _). specialize (H h r I). unfold line, branch_of. cbn [fst snd].
    destruct (strip_prefix "refs/heads/" r) as [b|] eqn:S.
    + apply strip_prefix_some in S. subst r. replace (h ++ String tab ("refs/heads/" ++ b))%string with ((h ++ String tab "refs") ++ "/heads/" ++ b)%string by (rewrite append_assoc; reflexivity).
      replace (contains "/heads/" ((h ++ String tab "refs") ++ "/heads/" ++ b)) with true by (symmetry; apply contains_spec; eauto). cbn [last_piece]. rewrite find_after_skip; [now rewrite last_piece_none|]. rewrite has_char_app, A. reflexivity.
    + assert (X : contains "/heads/" (h ++ String tab r) = false).
      { destruct (contains "/heads/" (h ++ String tab r)) eqn:E; [|reflexivity]. exfalso. clear - A H E. induction h as [|c h IH].
        - cbn [append contains] in E. unfold starts_with in E. cbn [strip_prefix Ascii.eqb Bool.eqb] in E. rewrite orb_false_l in E. congruence.
        - cbn [has_char] in A. apply orb_false_iff in A. destruct A as [A1 A2]. cbn [append contains] in E. apply orb_true_iff in E. destruct E as [E|E]; [|exact (IH A2 E)].
          unfold starts_with in E. cbn [strip_prefix] in E. destruct (Ascii.eqb "/" c) eqn:Y; [apply Ascii.eqb_eq in Y; subst; rewrite Ascii.eqb_refl in A1; discriminate A1|discriminate E]. }
      rewrite X. reflexivity.
  - destruct refs; [contradiction|discriminate].
  - intros x I. apply in_map_iff in I. destruct I as ([h r] & <- & I). destruct (C h r I) as (_ & A & B). unfold line. cbn [fst snd]. rewrite has_char_app. cbn [has_char]. rewrite A, B. reflexivity.
Qed.
(** a branch whose name has /heads/ inside is offered under another name *)
Theorem C67_branch_name_refuted h a b : has_char "/" h = false -> has_char newline h = false -> has_char "/" a = false -> has_char newline a = false -> contains "/heads/" b = false -> has_char newline b = false -> a <> "" ->
  parse_ls_remote (listing [(h, ("refs/heads/" ++ a ++ "/heads/" ++ b)%string)]) = [b].
Proof.
  intros H1 H2 A1 A2 B1 B2 N. unfold parse_ls_remote, listing. rewrite split_join; [|discriminate|].
  - cbn [map flat_map]. assert (L : line (h, ("refs/heads/" ++ a ++ "/heads/" ++ b)%string) = ((h ++ String tab "refs") ++ "/heads/" ++ a ++ "/heads/" ++ b)%string) by (unfold line; cbn [fst snd]; rewrite append_assoc; reflexivity).
    assert (K : exists n, String.length (line (h, ("refs/heads/" ++ a ++ "/heads/" ++ b)%string)) = S n) by (unfold line; cbn [fst snd]; rewrite append_length; cbn [String.length]; rewrite Nat.add_succ_r; eauto). destruct K as [n ->]. rewrite L.
    replace (contains "/heads/" ((h ++ String tab "refs") ++ "/heads/" ++ a ++ "/heads/" ++ b)) with true by (symmetry; apply contains_spec; eauto).
    cbn [last_piece List.app]. rewrite find_after_skip by (rewrite has_char_app, H1; reflexivity). cbn [last_piece]. rewrite find_after_skip by exact A1. now rewrite last_piece_none.
  - intros x [<-|[]]. unfold line. cbn [fst snd]. rewrite !has_char_app, H2. cbn [has_char]. rewrite !has_char_app, A2, B2. reflexivity.
Qed.

(** ** Locations *)
Lemma lower_app_inv s a b : lower s = (a ++ b)%string -> exists a' b', s = (a' ++ b')%string /\ lower a' = a /\ lower b' = b.
Proof.
  revert s. induction a as [|c a IH]; intros s H; [exists "", s; auto|]. destruct s as [|d s]; cbn [lower append] in H; [discriminate H|]. injection H as H1 H2. destruct (IH s H2) as (a' & b' & -> & A & B). exists (String d a'), b'. cbn [append lower]. rewrite H1, A. auto.
Qed.
Lemma lower_sep s : lower s = "://" -> s = "://".
Proof.
  assert (L : forall c x, lower_ascii c = x -> (x = ":" \/ x = "/")%char -> c = x).
  { intros c x H X. unfold lower_ascii in H. destruct c as [[] [] [] [] [] [] [] []]; destruct X as [-> | ->]; vm_compute in H; first [discriminate H|reflexivity]. }
  destruct s as [|a [|b [|c [|d s]]]]; cbn [lower]; try discriminate. intros H. injection H as A B C. apply L in A; auto. apply L in B; auto. apply L in C; auto. congruence.
Qed.
Lemma contains_lower p s : lower p = p -> contains p s = true -> contains p (lower s) = true.
Proof. intros P H. apply contains_spec in H. destruct H as (a & b & ->). apply contains_spec. exists (lower a), (lower b). rewrite !lower_app, P. reflexivity. Qed.
(** C67: addresses of repositories are remote, paths are local *)
Theorem C67_remote r : is_local ("https://" ++ r) = false /\ is_local ("http://" ++ r) = false /\ is_local ("git@" ++ r) = false.
Proof.
  assert (S : forall p s, lower p = p -> starts_with p (lower (p ++ s)) = true) by (intros p s P; unfold starts_with; rewrite lower_app, P, strip_prefix_app; reflexivity).
  unfold is_local. cbv zeta. split; [|split].
  - rewrite (contains_lower "https://" ("https://" ++ r) eq_refl (contains_prefix _ _)), orb_true_r. reflexivity.
  - rewrite (contains_lower "http://" ("http://" ++ r) eq_refl (contains_prefix _ _)). reflexivity.
  - rewrite (S "git@" r eq_refl), orb_true_r. reflexivity.
Qed.
Theorem C67_local l : contains "://" l = false -> starts_with "git@" (lower l) = false -> is_local l = true.
Proof.
  intros H G. assert (K : forall a, contains (a ++ "://") (lower l) = false).
  { intros a. destruct (contains (a ++ "://") (lower l)) eqn:E; [|reflexivity]. exfalso. apply contains_spec in E. destruct E as (x & y & E). destruct (lower_app_inv l x _ E) as (x' & r & -> & _ & R). destruct (lower_app_inv r _ _ R) as (m & y' & -> & M & _). destruct (lower_app_inv m _ _ M) as (a' & s & -> & _ & S).
    apply lower_sep in S. subst s. enough (X : contains "://" (x' ++ (a' ++ "://") ++ y') = true) by congruence. apply contains_spec. exists (x' ++ a')%string, y'. rewrite !append_assoc. reflexivity. }
  unfold is_local. cbv zeta. pose proof (K "http") as K1. pose proof (K "https") as K2. cbn [append] in K1, K2. rewrite K1, K2, G. reflexivity.
Qed.
(** an ssh:// address is taken for a local folder; an address with GIT@ is remote but is not given the key *)
Theorem C67_ssh_address_refuted r : has_char ":" r = false -> is_local ("ssh://git@" ++ r) = true.
Proof.
  intros H. assert (K : forall s, has_char ":" s = false -> has_char ":" (lower s) = false).
  { induction s as [|c s IH]; [auto|]. cbn [has_char lower]. intros X. apply orb_false_iff in X. destruct X as [X Y]. rewrite (IH Y), orb_false_r. destruct c as [[] [] [] [] [] [] [] []]; vm_compute in X |- *; first [discriminate X|reflexivity]. }
  assert (C : forall p s, has_char ":" s = false -> contains (p ++ "://") s = false).
  { intros p s X. destruct (contains (p ++ "://") s) eqn:E; [|reflexivity]. apply contains_spec in E. destruct E as (a & b & ->). rewrite !has_char_app in X. cbn [has_char Ascii.eqb Bool.eqb orb] in X. rewrite !orb_true_r in X. discriminate X. }
  unfold is_local. cbv zeta. rewrite lower_app. cbn [lower]. set (t := lower r). assert (T : has_char ":" t = false) by (apply K; exact H).
  change (lower "ssh://git@") with "ssh://git@". cbn [append contains starts_with]. unfold starts_with. cbn [strip_prefix Ascii.eqb Bool.eqb orb]. pose proof (C "http" t T) as K1. pose proof (C "https" t T) as K2. cbn [append] in K1, K2. rewrite K1, K2. reflexivity.
Qed.
Theorem C67_capital_address_refuted fail partial leaves fresh listed r dest branch k w : is_local ("GIT@" ++ r) = false /\
  Repo_Model.fetch fail partial leaves fresh listed ("GIT@" ++ r) dest branch (Some k) w = fetch_https fail leaves listed dest branch w.
Proof. split; [|reflexivity]. unfold is_local. cbv zeta. rewrite lower_app. cbn [lower]. unfold starts_with. change (lower "GIT@") with "git@". rewrite strip_prefix_app, orb_true_r. reflexivity. Qed.

Print Assumptions C67_operation_leaves_no_key.
Print Assumptions C67_fetch_leaves_no_key.
Print Assumptions C67_commands_have_the_key.
Print Assumptions C67_only_the_branch.
Print Assumptions C67_failed_write_refuted.
Print Assumptions C67_done_but_raises_refuted.
Print Assumptions C67_fetch_reason_refuted.
Print Assumptions C67_clone_deleted.
Print Assumptions C67_load_leaves_no_key.
Print Assumptions C67_clone_left_refuted.
Print Assumptions C67_branches.
Print Assumptions C67_branch_name_refuted.
Print Assumptions C67_remote.
Print Assumptions C67_local.
Print Assumptions C67_ssh_address_refuted.
Print Assumptions C67_capital_address_refuted.

(** ** Cases *)
Definition never : call -> nat -> bool := fun _ _ => false.
Definition no_chmod : call -> nat -> bool := fun c _ => match c with CChmod => true | _ => false end.
Definition no_push : call -> nat -> bool := fun c n => match c with CGit => Nat.leb 6 n | _ => false end.
Definition no_write : call -> nat -> bool := fun c n => match c with CWrite => Nat.leb 1 n | _ => false end.
Definition no_read : call -> nat -> bool := fun c _ => match c with CRead => true | _ => false end.
Definition start : world := World [("other", Tree)] 0 [].
Definition all_of (n : nat) : option string := Some "SECRET".
(** nothing fails: the commands run, and only the files of before are left *)
Example C67_operation_case :
  let '(r, w') := ssh_wrapped never all_of (fun _ => "k1") (Some (Some "k1")) (Some "SECRET") (OCommit "fix" "dev") start in
  r = Done tt /\ w_disk w' = [("other", Tree)] /\ map fst (w_git w') = [GCheckout "dev"; GAdd; GCommit "fix"; GPush "dev"] /\ (forall c ps, In (c, ps) (w_git w') -> In "k1" ps).
Proof. vm_compute. split; [reflexivity|]. split; [reflexivity|]. split; [reflexivity|]. intros c ps H. repeat (destruct H as [H|H]; [injection H as <- <-; now left|]). destruct H. Qed.
(** the push fails: the key is removed all the same, and nothing was pushed *)
Example C67_push_fails_case :
  let '(r, w') := ssh_wrapped no_push all_of (fun _ => "k1") (Some (Some "k1")) (Some "SECRET") (OCommit "fix" "dev") start in
  r = Raised (FCall CGit) /\ w_disk w' = [("other", Tree)] /\ map fst (w_git w') = [GCheckout "dev"; GAdd; GCommit "fix"].
Proof. vm_compute. auto. Qed.
Example C67_done_but_raises_case :
  let '(r, w') := ssh_wrapped no_chmod all_of (fun _ => "k1") (Some (Some "k1")) (Some "SECRET") (OCommit "fix" "dev") start in
  r = Raised FMissing /\ map fst (w_git w') = [GCheckout "dev"; GAdd; GCommit "fix"; GPush "dev"].
Proof. vm_compute. auto. Qed.
Example C67_failed_write_case :
  let '(r, w') := ssh_wrapped no_write all_of (fun _ => "k1") (Some (Some "k1")) (Some "SECRET") (OCommit "fix" "dev") start in
  r = Raised (FCall CWrite) /\ key_text w' "k1" "SECRET".
Proof. vm_compute. auto. Qed.
(** a project is loaded by ssh: neither the key nor the clone stays *)
Example C67_load_case :
  let '(r, w') := load never all_of (fun _ => false) (fun _ => "k1") ["main"; "dev"] "git@host:o/r.git" "clone" "main" (Some "SECRET") "metrics_layer" start in
  r = Done tt /\ w_disk w' = [("other", Tree)].
Proof. vm_compute. auto. Qed.
Example C67_clone_left_case :
  let '(r, w') := load no_read all_of (fun _ => false) (fun _ => "k1") ["main"; "dev"] "https://host/o/r.git" "clone" "main" None "metrics_layer" start in
  r = Raised (FCall CRead) /\ cloned w' "clone".
Proof. vm_compute. auto. Qed.
Example C67_branches_case :
  parse_ls_remote (listing [("a1", "HEAD"); ("a1", "refs/heads/main"); ("b2", "refs/heads/feature/x"); ("c3", "refs/pull/7/head"); ("d4", "refs/tags/v1")]) = ["main"; "feature/x"].
Proof. vm_compute. reflexivity. Qed.
Example C67_branch_name_case : parse_ls_remote (listing [("a1", "refs/heads/old/heads/main")]) = ["main"].
Proof. vm_compute. reflexivity. Qed.
Example C67_local_case : is_local "./models" = true /\ is_local "https://github.com/o/r.git" = false /\ is_local "ssh://git@github.com/o/r.git" = true.
Proof. vm_compute. auto. Qed.
