(** C32: what rows a merged query returns, for arbitrary sub query results. *)
From Verif Require Import PyBase PyList PyStr PySort Merged_Model MergedRows_Spec MergedRows_Proofs.
From Coq Require Import ZArith Lia.
Local Open Scope string_scope.
Local Open Scope list_scope.
Local Open Scope nat_scope.

(** ** Specification vocabulary *)
Definition dims (c : mconf) (h : string) : list mcol :=
  match assoc h (mf_dims c) with Some l => l | None => [] end.
Definition key (c : mconf) := key_of (dims c).
(** The sub queries are grouped by their dimensions, [n] in each (n > 0), and no dimension is NULL. *)
Definition grouped (c : mconf) (tab : string -> list row) (n : nat) : Prop :=
  n > 0 /\ NoDup (mf_hashes c)
  /\ forall h, In h (mf_hashes c) ->
       assoc h (mf_dims c) <> None /\ List.length (dims c h) = n
       /\ NoDup (map (key c h) (tab h)) /\ forall r, In r (tab h) -> nonnull (key c h r).
(** Sub query [h] has a row for the dimension values [k]. *)
Definition has_key (c : mconf) (tab : string -> list row) (k : list (option Z)) (h : string) : Prop :=
  exists r, In r (tab h) /\ key c h r = k.

(** ** Number of rows for each combination of dimension values *)
Lemma grouped_rows c tab n h0 hs : grouped c tab n -> mf_hashes c = h0 :: hs ->
  exists js, build_from c = Ok js /\ rows_of tab js = expected c tab h0 hs.
Proof.
  intros (NP & ND & G) H. apply (build_rows c tab h0 n NP).
  - apply (G h0). rewrite H. left. reflexivity.
  - exact H.
  - intros h I. apply (G h). rewrite H. right. exact I.
  - rewrite <- H. exact ND.
Qed.

Definition count_key (c : mconf) (tab : string -> list row) (k : list (option Z)) (h : string) : nat :=
  List.length (filter (fun r => key_eqb (key c h r) k) (tab h)).

(** For every number of sub queries and all data: the merged query exists, each of its rows belongs to
    one combination, and a combination of the first sub query has one row while any other has one row
    per sub query containing it. *)
Theorem C32_rows_per_combination c tab n h0 hs :
  grouped c tab n -> mf_hashes c = h0 :: hs ->
  exists js, build_from c = Ok js
    /\ (forall j, In j (rows_of tab js) -> j <> [] /\ exists k, for_key (dims c) k j = true
                                                   /\ exists h, In h (mf_hashes c) /\ has_key c tab k h)
    /\ (forall k, List.length (filter (for_key (dims c) k) (rows_of tab js)) =
                  if Nat.eqb (count_key c tab k h0) 0
                  then list_sum (map (count_key c tab k) hs) else 1).
Proof.
  intros G H. destruct (grouped_rows c tab n h0 hs G H) as (js & E & R). exists js. split; [exact E|].
  rewrite R. destruct G as (NP & ND & G).
  assert (G0 : MergedRows_Proofs.good c tab n h0) by (apply (G h0); rewrite H; left; reflexivity).
  split.
  - intros j I. unfold expected in I. apply in_app_or in I. destruct I as [I|I].
    + apply in_map_iff in I. destruct I as (r0 & <- & I). split; [discriminate|].
      exists (key c h0 r0). split.
      * rewrite (base_row_for c tab h0 hs r0 (key c h0 r0) : for_key (dims c) _ _ = _). apply key_eqb_refl.
      * exists h0. split; [rewrite H; left; reflexivity|]. exists r0. auto.
    + apply in_flat_map in I. destruct I as (h & I & J). apply in_map_iff in J. destruct J as (r & <- & J).
      split; [discriminate|]. unfold lone in J. apply filter_In in J. destruct J as [J _].
      exists (key c h r). split; [unfold for_key; simpl; unfold key; rewrite key_eqb_refl; reflexivity|].
      exists h. split; [rewrite H; right; exact I|]. exists r. auto.
  - intros k. pose proof (expected_for c tab h0 hs k) as X.
    change (fun h1 => match assoc h1 (mf_dims c) with Some l => l | None => [] end) with (dims c) in X.
    rewrite X. rewrite app_length, map_length.
    assert (CK : forall h, count_key c tab k h = List.length (partners c tab h k)) by reflexivity.
    destruct (Nat.eqb (count_key c tab k h0) 0) eqn:Z.
    + apply Nat.eqb_eq in Z. rewrite CK in Z. destruct (partners c tab h0 k) as [|] eqn:P; [|simpl in Z; lia].
      simpl. assert (F : existsb (fun r0 => key_eqb k (key_of (dims c) h0 r0)) (tab h0) = false).
      { apply existsb_false. intros r I. rewrite key_eqb_sym.
        unfold partners in P. exact (proj1 (filter_nil _ _) P r I). }
      rewrite F. simpl. clear. induction hs as [|h hs IH]; simpl; [reflexivity|].
      rewrite app_length, map_length, IH. f_equal. unfold count_key.
      rewrite (filter_all (fun _ => true)) by reflexivity. reflexivity.
    + apply Nat.eqb_neq in Z. rewrite CK in Z.
      destruct (partners_le1 c tab n h0 k G0) as [P|[r P]]; rewrite P in *; [simpl in Z; lia|]. simpl.
      assert (F : existsb (fun r0 => key_eqb k (key_of (dims c) h0 r0)) (tab h0) = true).
      { apply existsb_exists. exists r.
        assert (I : In r (partners c tab h0 k)) by (rewrite P; left; reflexivity).
        apply filter_In in I. destruct I as [I K]. split; [exact I|]. rewrite key_eqb_sym. exact K. }
      rewrite F. simpl. f_equal. clear. induction hs as [|h hs IH]; simpl; [reflexivity|].
      rewrite app_length, IH, map_length.
      rewrite (proj2 (filter_nil (fun _ => false) _)) by reflexivity. reflexivity.
Qed.
Print Assumptions C32_rows_per_combination.

(** With two sub queries, or when the first sub query has every combination of the others, each
    combination appears exactly once, holding the row of every sub query that has it. *)
Theorem C32_exactly_once c tab n h0 hs :
  grouped c tab n -> mf_hashes c = h0 :: hs ->
  (List.length hs <= 1 \/ forall h k, In h hs -> has_key c tab k h -> has_key c tab k h0) ->
  exists js, build_from c = Ok js
    /\ forall k, (exists h, In h (mf_hashes c) /\ has_key c tab k h) ->
       exists j, filter (for_key (dims c) k) (rows_of tab js) = [j]
         /\ forall h r, In h (mf_hashes c) -> (In (h, r) j <-> In r (tab h) /\ key c h r = k).
Proof.
  intros G H C. destruct (grouped_rows c tab n h0 hs G H) as (js & E & R). exists js. split; [exact E|].
  rewrite R. destruct G as (NP & ND & G).
  assert (G0 : MergedRows_Proofs.good c tab n h0) by (apply (G h0); rewrite H; left; reflexivity).
  intros k (h & Ih & r & Ir & Kr).
  pose proof (expected_for c tab h0 hs k) as X.
  change (fun h1 => match assoc h1 (mf_dims c) with Some l => l | None => [] end) with (dims c) in X.
  rewrite X. clear X.
  assert (PI : forall h r, In r (partners c tab h k) <-> In r (tab h) /\ key c h r = k).
  { intros h' r'. unfold partners. rewrite filter_In, key_eqb_eq. reflexivity. }
  destruct (partners_le1 c tab n h0 k G0) as [P|[r0 P]].
  - (* not in the first sub query *)
    assert (N0 : ~ has_key c tab k h0) by (intros (r' & Hr'); apply PI in Hr'; rewrite P in Hr'; exact Hr').
    assert (Ih' : In h hs).
    { rewrite H in Ih. destruct Ih as [<-|I]; [|exact I]. exfalso. apply N0. exists r. auto. }
    destruct C as [C|C]; [|exfalso; apply N0; apply (C h k Ih'); exists r; auto].
    destruct hs as [|h1 hs]; [destruct Ih'|]. destruct hs as [|]; [|simpl in C; lia].
    destruct Ih' as [->|[]].
    assert (F : existsb (fun r0 => key_eqb k (key_of (dims c) h0 r0)) (tab h0) = false).
    { apply existsb_false. intros r' I. rewrite key_eqb_sym. exact (proj1 (filter_nil _ _) P r' I). }
    rewrite P, F. simpl.
    assert (G1 : MergedRows_Proofs.good c tab n h) by (apply (G h); rewrite H; right; left; reflexivity).
    destruct (partners_le1 c tab n h k G1) as [Q|[r1 Q]].
    { exfalso. assert (I : In r (partners c tab h k)) by (apply PI; auto). rewrite Q in I. exact I. }
    rewrite Q. simpl. exists [(h, r1)]. split; [reflexivity|].
    intros h' r' Ih2. rewrite <- PI. split.
    + intros [E1|[]]. injection E1 as <- <-. rewrite Q. left; reflexivity.
    + intros I2. rewrite H in Ih2. destruct Ih2 as [<-|[<-|[]]].
      * rewrite P in I2. destruct I2.
      * rewrite Q in I2. destruct I2 as [->|[]]. left; reflexivity.
  - assert (F : existsb (fun r0 => key_eqb k (key_of (dims c) h0 r0)) (tab h0) = true).
    { apply existsb_exists. exists r0.
      assert (I : In r0 (partners c tab h0 k)) by (rewrite P; left; reflexivity).
      apply filter_In in I. destruct I as [I K]. split; [exact I|]. rewrite key_eqb_sym. exact K. }
    assert (K0 : key_of (dims c) h0 r0 = k).
    { apply (PI h0 r0). rewrite P. left; reflexivity. }
    rewrite P, F. simpl.
    exists (base_row c tab h0 hs r0). split.
    + f_equal. clear. induction hs as [|h hs IH]; simpl; [reflexivity|].
      rewrite (proj2 (filter_nil (fun _ => false) _)) by reflexivity. exact IH.
    + intros h' r' Ih2. rewrite <- PI. unfold base_row.
      change (key_of (fun h1 => match assoc h1 (mf_dims c) with Some l => l | None => [] end) h0 r0)
        with (key_of (dims c) h0 r0). rewrite K0. split.
      * intros [E1|I2]; [injection E1 as <- <-; rewrite P; left; reflexivity|].
        apply in_flat_map in I2. destruct I2 as (h2 & _ & I2). apply in_map_iff in I2.
        destruct I2 as (r2 & E2 & I2). injection E2 as -> ->. exact I2.
      * intros I2. rewrite H in Ih2. destruct Ih2 as [<-|Ih2].
        -- rewrite P in I2. destruct I2 as [->|[]]. left; reflexivity.
        -- right. apply in_flat_map. exists h'. split; [exact Ih2|]. apply in_map. exact I2.
Qed.
Print Assumptions C32_exactly_once.

(** ** Dimension values *)
Definition sub_names (c : mconf) : Prop := forall h l, In (h, l) (mf_dims c) -> assoc h (mf_dims c) = Some l /\ In h (mf_hashes c).

(** A joined row for [k] holds, in the column of position [i] of any sub query in it, the i-th value. *)
Lemma col_at c k j h i f : for_key (dims c) k j = true -> nth_error (dims c h) i = Some f ->
  (col_val j h (mc_alias f) = None \/ exists v, nth_error k i = Some v /\ col_val j h (mc_alias f) = v)
  /\ (In h (map fst j) -> nth_error k i = Some (col_val j h (mc_alias f))).
Proof.
  intros F N. unfold for_key in F. rewrite forallb_forall in F. unfold col_val.
  destruct (assoc h j) as [r|] eqn:A.
  - specialize (F _ (assoc_In _ _ _ A)). simpl in F. apply key_eqb_eq in F.
    assert (X : nth_error k i = Some (r (mc_alias f))).
    { rewrite <- F. unfold key_of. apply map_nth_error with (f := fun f => r (mc_alias f)). exact N. }
    split; [right; eauto|auto].
  - split; [left; reflexivity|]. intros I. apply assoc_None in A. contradiction.
Qed.

(** An expression made of the position-[i] columns of sub queries, at least one of them in the row *)
Lemma dim_value c k j i e v :
  for_key (dims c) k j = true -> nth_error k i = Some (Some v) ->
  (forall p, In p (columns e) -> exists f, nth_error (dims c (fst p)) i = Some f /\ snd p = mc_alias f) ->
  (exists h f, In h (map fst j) /\ nth_error (dims c h) i = Some f /\ In (h, mc_alias f) (columns e)) ->
  eval j e = Some v.
Proof.
  intros F N C (h & f & I & D & J). apply eval_some.
  - intros p Ip. destruct (C p Ip) as (f' & D' & E'). rewrite E'.
    destruct (col_at c k j (fst p) i f' F D') as [[X|(w & X & Y)] _]; [left; exact X|].
    rewrite N in X. injection X as <-. right; exact Y.
  - exists (h, mc_alias f). split; [exact J|]. simpl.
    destruct (col_at c k j h i f F D) as [_ X]. specialize (X I). rewrite N in X. congruence.
Qed.

(** Shared dimensions: the same field, without mapping, in every sub query.  In every row its column
    is the row's value, whichever sub queries the row comes from. *)
Theorem C32_shared_dimension c fs :
  sub_names c -> (forall h, In h (mf_hashes c) -> assoc h (mf_dims c) = Some fs) ->
  NoDup (map mc_alias fs) -> (forall f, In f fs -> entries_for c (mc_id f) = []) ->
  exists sel, dim_select c = Ok sel
    /\ forall i f k v j, nth_error fs i = Some f -> for_key (dims c) k j = true -> j <> [] ->
         (forall h, In h (map fst j) -> In h (mf_hashes c)) -> nth_error k i = Some (Some v) ->
         exists e, assoc (mc_alias f) sel = Some e /\ eval j e = Some v.
Proof.
  intros SN SH ND NM.
  assert (NE : forall p, In p (flat_items (sorted_items (mf_dims c))) -> entries_for c (mc_id (snd p)) = []).
  { intros [h f] I. apply flat_sorted_items in I. destruct I as (l & I & J). simpl.
    destruct (SN h l I) as [A Ih]. rewrite (SH h Ih) in A. injection A as <-. apply NM. exact J. }
  destruct (dim_loop_total c (flat_items (sorted_items (mf_dims c)))) with (acc := @nil (string * sqle)) as [sel E].
  { intros p I. left. apply NE. exact I. }
  exists sel. split; [exact E|]. intros i f k v j N F NJ HJ K.
  destruct (dim_loop_cols c (mc_alias f) _ _ _ E) as [C1 C2]. simpl in C1.
  rewrite (cols_shared c (mc_alias f) _ NE) in C1. simpl in C1.
  destruct j as [|[h r] j']; [congruence|].
  assert (Ih : In h (mf_hashes c)) by (apply HJ; left; reflexivity).
  assert (If : In (h, f) (flat_items (sorted_items (mf_dims c)))).
  { apply flat_sorted_In, flat_items_In. exists fs. split; [apply assoc_In, SH; exact Ih|].
    eapply nth_error_In. exact N. }
  destruct (assoc (mc_alias f) sel) as [e|] eqn:A.
  - exists e. split; [reflexivity|]. simpl in C1.
    apply (dim_value c k ((h, r) :: j') i e v F K).
    + intros p Ip. rewrite C1 in Ip. apply in_map_iff in Ip. destruct Ip as ([h' f'] & <- & Ip).
      apply filter_In in Ip. destruct Ip as [Ip Q]. simpl in Q. apply String.eqb_eq in Q. simpl.
      apply flat_sorted_items in Ip. destruct Ip as (l & Il & Jl). destruct (SN h' l Il) as [A' Ih'].
      exists f. split; [|reflexivity]. unfold dims. rewrite (SH h' Ih'). exact N.
    + exists h, f. split; [left; reflexivity|]. split; [unfold dims; rewrite (SH h Ih); exact N|].
      rewrite C1. apply in_map_iff. exists (h, f). split; [reflexivity|]. apply filter_In. split; [exact If|].
      simpl. apply String.eqb_refl.
  - exfalso. apply (proj1 C2 eq_refl). apply in_map_iff. exists (h, f). split; [reflexivity|exact If].
Qed.
Print Assumptions C32_shared_dimension.

(** Mapped dimensions: a field used in one sub query only, whose mapping names the counterpart at the
    same position of every other sub query. *)
Theorem C32_mapped_dimension c sel h f i :
  sub_names c -> NoDup (map fst (mf_dims c)) -> (forall h' l, In (h', l) (mf_dims c) -> NoDup l) ->
  dim_select c = Ok sel -> nth_error (dims c h) i = Some f ->
  (forall h' f', In (h', f') (flat_items (mf_dims c)) -> mc_alias f' = mc_alias f -> h' = h /\ f' = f) ->
  entries_for c (mc_id f) <> [] ->
  (forall h' x, In (h', x) (entries_for c (mc_id f)) -> In x (all_dim_ids c) ->
     exists f', nth_error (dims c h') i = Some f' /\ mc_id f' = x /\ mc_alias f' = replace "." "_" x) ->
  (forall h', In h' (mf_hashes c) -> h' <> h ->
     exists f', nth_error (dims c h') i = Some f' /\ In (h', mc_id f') (entries_for c (mc_id f))
                /\ mc_alias f' = replace "." "_" (mc_id f')) ->
  forall k v j, for_key (dims c) k j = true -> j <> [] ->
    (forall h', In h' (map fst j) -> In h' (mf_hashes c)) -> nth_error k i = Some (Some v) ->
    exists e, assoc (mc_alias f) sel = Some e /\ eval j e = Some v.
Proof.
  intros SN NDK NDL E N U NE EN CO k v j F NJ HJ K.
  destruct (assoc h (mf_dims c)) as [l|] eqn:A; [|unfold dims in N; rewrite A in N; destruct i; discriminate].
  assert (Nl : nth_error l i = Some f) by (unfold dims in N; rewrite A in N; exact N).
  assert (If : In (h, f) (flat_items (sorted_items (mf_dims c)))).
  { apply flat_sorted_In, flat_items_In. exists l. split; [apply assoc_In; exact A|].
    eapply nth_error_In. exact Nl. }
  assert (NDF : NoDup (flat_items (sorted_items (mf_dims c)))).
  { unfold flat_items.
    assert (NK : NoDup (map fst (sorted_items (mf_dims c)))).
    { eapply Permutation_NoDup; [apply Permutation_map; symmetry; apply isort_perm|exact NDK]. }
    assert (NL : forall h' l', In (h', l') (sorted_items (mf_dims c)) -> NoDup l').
    { intros h' l' I. apply (NDL h'). apply isort_In in I. exact I. }
    clear If. revert NK NL. induction (sorted_items (mf_dims c)) as [|[h1 l1] d IH]; intros NK NL; simpl; [constructor|].
    inversion NK as [|? ? N1 N2]; subst. apply NoDup_app_intro.
    - assert (N3 : NoDup l1) by (apply (NL h1); left; reflexivity). clear -N3.
      induction N3 as [|x l1 X N3 IH]; simpl; constructor; [|exact IH]. intros I. apply in_map_iff in I.
      destruct I as (y & Ey & Iy). injection Ey as ->. contradiction.
    - apply IH; [exact N2|]. intros h' l' I. apply (NL h'). right. exact I.
    - intros [h' f'] I J. apply in_map_iff in I. destruct I as (y & Ey & _). injection Ey as <- <-.
      apply N1. apply in_flat_map in J. destruct J as ([h2 l2] & J & J2). apply in_map_iff in J2.
      destruct J2 as (z & Ez & _). simpl in Ez. injection Ez as -> _. apply (in_map fst) in J. exact J. }
  destruct (dim_loop_cols c (mc_alias f) _ _ _ E) as [C1 C2].
  rewrite (cols_mapped c _ (h, f) If NDF) in C1.
  2: { intros [h' f'] I Q. apply (flat_sorted_In (mf_dims c)) in I. destruct (U h' f' I Q). subst. reflexivity. }
  2: { exact NE. }
  destruct (assoc (mc_alias f) sel) as [e|] eqn:AS.
  2: { exfalso. apply (proj1 C2 eq_refl). apply in_map_iff. exists (h, f). split; [reflexivity|exact If]. }
  exists e. split; [reflexivity|]. cbn [cols_of fst snd] in C1.
  apply (dim_value c k j i e v F K).
  - intros p Ip. rewrite C1 in Ip. destruct Ip as [<-|Ip]; [exists f; split; [exact N|reflexivity]|].
    apply in_map_iff in Ip. destruct Ip as ([h' x] & <- & Ip). unfold present in Ip. apply filter_In in Ip.
    destruct Ip as [I1 I2]. simpl in I2. apply mem_In in I2.
    destruct (EN h' x I1 I2) as (f' & X1 & X2 & X3). exists f'. unfold entry_col. cbn [fst snd]. split; [exact X1|symmetry; exact X3].
  - destruct j as [|[h1 r1] j']; [congruence|].
    destruct (string_dec h1 h) as [->|NEQ].
    + exists h, f. split; [left; reflexivity|]. split; [exact N|]. rewrite C1. left. reflexivity.
    + destruct (CO h1) as (f' & X1 & X2 & X3); [apply HJ; left; reflexivity|exact NEQ|].
      exists h1, f'. split; [left; reflexivity|]. split; [exact X1|]. rewrite C1. right.
      apply in_map_iff. exists (h1, mc_id f'). split; [unfold entry_col; cbn [fst snd]; rewrite <- X3; reflexivity|].
      unfold present. apply filter_In. split; [exact X2|]. simpl. apply mem_In.
      unfold dims in X1. destruct (assoc h1 (mf_dims c)) as [l1|] eqn:A1; [|destruct i; discriminate].
      unfold all_dim_ids. apply in_map_iff. exists (h1, f'). split; [reflexivity|].
      apply flat_items_In. exists l1. split; [apply assoc_In; exact A1|eapply nth_error_In; exact X1].
Qed.
Print Assumptions C32_mapped_dimension.

(** ** Metric columns *)
Theorem C32_metric_column c ds cols h f :
  dim_select c = Ok ds -> select_columns c = Ok cols ->
  In (h, f) (flat_items (mf_metrics c)) ->
  (forall h' f', In (h', f') (flat_items (mf_metrics c)) -> mc_alias f' = mc_alias f -> h' = h /\ f' = f) ->
  In (mc_alias f, SelExpr (SCol h (mc_alias f))) cols
  /\ forall j, eval j (SCol h (mc_alias f)) =
       match assoc h j with Some r => r (mc_alias f) | None => None end.
Proof.
  intros D S I U. split; [|reflexivity]. unfold select_columns in S. rewrite D in S. cbn [bind] in S.
  injection S as <-. apply in_or_app. left. apply in_map_iff. exists (h, f). split; [reflexivity|].
  unfold metric_select.
  assert (K : In (mc_alias f) (map (fun p => mc_alias (snd p))
             (dedup_by (fun p : string * mcol => mc_alias (snd p)) (flat_items (sorted_items (mf_metrics c)))))).
  { apply dedup_by_aux_keys. split; [|intros []]. apply in_map_iff. exists (h, f). split; [reflexivity|].
    apply flat_sorted_In. exact I. }
  apply in_map_iff in K. destruct K as ([h' f'] & Q & J). simpl in Q.
  pose proof (dedup_by_aux_In _ _ _ _ J) as [J2 _]. apply (flat_sorted_In (mf_metrics c)) in J2.
  destruct (U h' f' J2 Q). subst. exact J.
Qed.
Print Assumptions C32_metric_column.

(** ** No dimensions: one row, all the metrics *)
Theorem C32_no_dimensions c tab rowof :
  no_dimensions c = true -> mf_hashes c <> [] -> (forall h, In h (mf_hashes c) -> tab h = [rowof h]) ->
  exists js, build_from c = Ok js
    /\ rows_of tab js = [map (fun h => (h, rowof h)) (mf_hashes c)].
Proof.
  intros ND NE T. unfold build_from. destruct (mf_hashes c) as [|h0 hs]; [congruence|].
  assert (X : forall js0, exists js, mapM (join_one c h0) hs = Ok js
     /\ fold_left (step_join tab) js [js0] = [js0 ++ map (fun h => (h, rowof h)) hs]).
  { assert (T' : forall h, In h hs -> tab h = [rowof h]) by (intros h I; apply T; right; exact I).
    clear NE T. induction hs as [|h hs IH]; intros j0; [exists []; simpl; rewrite app_nil_r; auto|].
    destruct (IH (fun x I => T' x (or_intror I)) (j0 ++ [(h, rowof h)])) as (js & E & F).
    assert (exists m, join_one c h0 h = Ok m /\ step_join tab [j0] m = [j0 ++ [(h, rowof h)]]) as (m & E1 & F1).
    { unfold join_one, join_criteria. rewrite ND. destruct (String.eqb (mf_type c) "REDSHIFT"); simpl.
      - exists (MCross h). split; [reflexivity|]. simpl. unfold cross_join.
        rewrite (T' h (or_introl eq_refl)). reflexivity.
      - exists (MOuter h None). split; [reflexivity|]. simpl. unfold full_join.
        rewrite (T' h (or_introl eq_refl)). reflexivity. }
    exists (m :: js). cbn [mapM]. rewrite E1. cbn [bind]. rewrite E. cbn [bind]. split; [reflexivity|].
    cbn [fold_left]. rewrite F1, F, <- app_assoc. reflexivity. }
  destruct (X [(h0, rowof h0)]) as (js & E & F). rewrite E. cbn [bind]. eexists. split; [reflexivity|].
  unfold rows_of. cbn [fold_left step_join]. rewrite (T h0 (or_introl eq_refl)). simpl map. rewrite F. reflexivity.
Qed.
Print Assumptions C32_no_dimensions.

(** ** Concrete cases and refutations *)
Definition f_reg := MC "customers.region" "customers_region" "customers.region" None None.
Definition f_date := MC "orders.order_date" "orders_order_date" "orders.order" (Some "date") None.
Definition f_sdate := MC "sessions.session_date" "sessions_session_date" "sessions.session" (Some "date") None.
Definition m_rev := MC "orders.revenue" "orders_revenue" "orders.revenue" None None.
Definition m_ses := MC "sessions.count" "sessions_count" "sessions.count" None None.
Definition m_evt := MC "events.count" "events_count" "events.count" None None.
Definition mk_row (l : list (string * Z)) : row := fun c => assoc c l.

(** Two sub queries sharing one dimension *)
Definition two := MF "SNOWFLAKE" [("a", [m_rev]); ("b", [m_ses])] [("a", [f_reg]); ("b", [f_reg])]
                     ["a"; "b"] [] [].
Definition two_tab (h : string) : list row :=
  if String.eqb h "a"
  then [mk_row [("customers_region", 1%Z); ("orders_revenue", 10%Z)]; mk_row [("customers_region", 2%Z); ("orders_revenue", 20%Z)]]
  else [mk_row [("customers_region", 2%Z); ("sessions_count", 7%Z)]; mk_row [("customers_region", 3%Z); ("sessions_count", 9%Z)]].
Lemma two_grouped : grouped two two_tab 1.
Proof.
  split; [lia|]. split; [repeat constructor; simpl; intuition discriminate|].
  intros h [<-|[<-|[]]]; (split; [discriminate|]; split; [reflexivity|]; split);
    try (repeat constructor; simpl; intuition discriminate);
    intros r [<-|[<-|[]]] v [<-|[]]; discriminate.
Qed.
Example C32_exactly_once_case :
  exists js, build_from two = Ok js /\ List.length (rows_of two_tab js) = 3
    /\ map (fun j => map (fun p => eval j (snd p)) [("d", SIfNull (SCol "a" "customers_region") (SCol "b" "customers_region"));
                                                    ("m", SCol "a" "orders_revenue"); ("n", SCol "b" "sessions_count")]) (rows_of two_tab js)
       = [[Some 1%Z; Some 10%Z; None]; [Some 2%Z; Some 20%Z; Some 7%Z]; [Some 3%Z; None; Some 9%Z]].
Proof. eexists. split; [reflexivity|]. split; vm_compute; reflexivity. Qed.
Example C32_shared_dimension_case :
  sub_names two /\ (forall h, In h (mf_hashes two) -> assoc h (mf_dims two) = Some [f_reg])
  /\ (forall f, In f [f_reg] -> entries_for two (mc_id f) = []).
Proof.
  split; [|split].
  - intros h l [E|[E|[]]]; injection E as <- <-; (split; [reflexivity|simpl; auto]).
  - intros h [<-|[<-|[]]]; reflexivity.
  - intros f [<-|[]]; reflexivity.
Qed.

(** Two sub queries with mapped date dimensions *)
Definition mapped := MF "BIGQUERY" [("a", [m_rev]); ("b", [m_ses])] [("a", [f_date]); ("b", [f_sdate])]
                        ["a"; "b"] [("orders.order", [("b", "sessions.session")]); ("sessions.session", [("a", "orders.order")])] [].
Example C32_mapped_dimension_case :
  exists sel, dim_select mapped = Ok sel
    /\ assoc "orders_order_date" sel = Some (SIfNull (SCol "a" "orders_order_date") (SCol "b" "sessions_session_date"))
    /\ entries_for mapped "orders.order_date" = [("b", "sessions.session_date")]
    /\ mc_alias f_sdate = replace "." "_" "sessions.session_date".
Proof. eexists. split; [vm_compute; reflexivity|]. repeat split; vm_compute; reflexivity. Qed.

(** Three sub queries: values found in the second and third but not in the first give two rows. *)
Definition three := MF "SNOWFLAKE" [("a", [m_rev]); ("b", [m_ses]); ("c", [m_evt])]
                       [("a", [f_reg]); ("b", [f_reg]); ("c", [f_reg])] ["a"; "b"; "c"] [] [].
Definition three_tab (h : string) : list row :=
  if String.eqb h "a" then [mk_row [("customers_region", 1%Z)]]
  else [mk_row [("customers_region", 2%Z)]].
Theorem C32_third_sub_query_refuted :
  exists c tab k js, grouped c tab 1 /\ build_from c = Ok js
    /\ List.length (filter (for_key (dims c) k) (rows_of tab js)) = 2.
Proof.
  exists three, three_tab, [Some 2%Z]. eexists. split; [|split; [reflexivity|vm_compute; reflexivity]].
  split; [lia|]. split; [repeat constructor; simpl; intuition discriminate|].
  intros h [<-|[<-|[<-|[]]]]; (split; [discriminate|]; split; [reflexivity|]; split);
    try (repeat constructor; simpl; intuition discriminate);
    intros r [<-|[]] v [<-|[]]; discriminate.
Qed.
Print Assumptions C32_third_sub_query_refuted.

(** A NULL dimension value present in both sub queries gives two rows. *)
Theorem C32_null_value_refuted :
  exists c tab js, mf_hashes c = ["a"; "b"] /\ build_from c = Ok js
    /\ (forall h, In h (mf_hashes c) -> NoDup (map (key c h) (tab h)))
    /\ List.length (filter (for_key (dims c) [None]) (rows_of tab js)) = 2.
Proof.
  exists two, (fun _ => [mk_row []]). eexists. split; [reflexivity|]. split; [reflexivity|]. split.
  - intros h _. simpl. constructor; [intros []|constructor].
  - vm_compute. reflexivity.
Qed.
Print Assumptions C32_null_value_refuted.

(** A dimension shared by two sub queries and mapped in a third: the column of the first sub query is
    overwritten, so its own rows show NULL. *)
Definition overwritten :=
  MF "SNOWFLAKE" [] [("a", [f_reg]); ("b", [f_reg]); ("c", [f_sdate])] ["a"; "b"; "c"]
     [("customers.region", [("c", "sessions.session_date")])] [].
Theorem C32_overwritten_dimension_refuted :
  exists c tab sel js j e, build_from c = Ok js /\ dim_select c = Ok sel /\ In j (rows_of tab js)
    /\ grouped c tab 1 /\ for_key (dims c) [Some 5%Z] j = true
    /\ assoc "customers_region" sel = Some e /\ eval j e = None.
Proof.
  exists overwritten, (fun h => if String.eqb h "a" then [mk_row [("customers_region", 5%Z)]] else []).
  eexists. eexists. eexists. eexists.
  split; [reflexivity|]. split; [vm_compute; reflexivity|]. split; [left; reflexivity|].
  split; [|split; [reflexivity|split; reflexivity]].
  split; [lia|]. split; [repeat constructor; simpl; intuition discriminate|].
  intros h [<-|[<-|[<-|[]]]]; (split; [discriminate|]; split; [reflexivity|]; split);
    try (repeat constructor; simpl; intuition discriminate); try (simpl; intros r I; destruct I; fail).
  intros r [<-|[]] v [<-|[]]. discriminate.
Qed.
Print Assumptions C32_overwritten_dimension_refuted.

(** A dimension that joins to every sub query but also has a mapping: IndexError. *)
Theorem C32_unused_mapping_refuted :
  exists c, mf_hashes c = ["a"; "b"] /\ mf_dims c = [("a", [f_reg]); ("b", [f_reg])]
    /\ select_columns c = Err IndexError.
Proof.
  exists (MF "SNOWFLAKE" [] [("a", [f_reg]); ("b", [f_reg])] ["a"; "b"]
             [("customers.region", [("b", "sessions.region")])] []).
  split; [reflexivity|]. split; vm_compute; reflexivity.
Qed.
Print Assumptions C32_unused_mapping_refuted.

(** Two different metrics with the same alias: one of them is not returned. *)
Theorem C32_alias_collision_refuted :
  exists c cols f1 f2, mc_id f1 <> mc_id f2
    /\ In ("a", f1) (flat_items (mf_metrics c)) /\ In ("b", f2) (flat_items (mf_metrics c))
    /\ mc_alias f1 = mc_alias f2 /\ select_columns c = Ok cols /\ List.length cols = 1.
Proof.
  exists (MF "SNOWFLAKE" [("a", [MC "orders.line_total" "orders_line_total" "orders.line_total" None None]);
                          ("b", [MC "orders_line.total" "orders_line_total" "orders_line.total" None None])]
             [] ["a"; "b"] [] []).
  eexists. eexists. eexists. split; [|split; [left; reflexivity|split; [right; left; reflexivity|]]].
  - discriminate.
  - split; [reflexivity|]. split; vm_compute; reflexivity.
Qed.
Print Assumptions C32_alias_collision_refuted.

(** When the query is produced at all, every sub query is joined with the first one on all of the first one's
    dimensions, position by position. *)
Theorem C32_all_dimensions c h0 hs js :
  mf_hashes c = h0 :: hs -> build_from c = Ok js -> no_dimensions c = false ->
  js = MFrom h0 :: tl js /\ map (fun j => match j with MFrom h | MCross h | MOuter h _ => h end) js = h0 :: hs
  /\ forall h on, In (MOuter h on) js -> exists first l, dims_of c h0 = Ok first /\ on = Some l
       /\ map me_left l = map (fun x => SCol h0 (mc_alias x)) first
       /\ (first <> [] -> exists second, dims_of c h = Ok second /\ List.length first <= List.length second
            /\ map me_right l = map (fun x => SCol h (mc_alias x)) (firstn (List.length first) second)).
Proof.
  intros H B ND. unfold build_from in B. rewrite H in B. apply bind_ok in B. destruct B as (l & L & B). injection B as <-.
  split; [reflexivity|]. apply mapM_ok in L. unfold join_one in L. rewrite ND in L. split.
  - simpl. f_equal. clear H. induction L as [|h j hs' l' E L IH]; [reflexivity|]. simpl. f_equal; [|exact IH].
    destruct (_ && false) eqn:Q; [rewrite andb_false_r in Q; discriminate|]. apply bind_ok in E. destruct E as (on & _ & E). injection E as <-. reflexivity.
  - intros h on [I|I]; [discriminate|]. clear H. induction L as [|h' j hs' l' E L IH]; [destruct I|]. destruct I as [->|I]; [|auto].
    rewrite andb_false_r in E. apply bind_ok in E. destruct E as (on' & C & E). injection E as -> ->.
    unfold join_criteria in C. rewrite ND in C. apply bind_ok in C. destruct C as (first & F & C).
    destruct first as [|x first]; [injection C as <-; exists [], []; repeat split; try assumption; congruence|].
    apply bind_ok in C. destruct C as (second & S & C). apply bind_ok in C. destruct C as (es & C & D). injection D as <-.
    exists (x :: first), es. split; [exact F|]. split; [reflexivity|].
    assert (G : forall a b es, eq_pairs c h0 h a b = Ok es -> map me_left es = map (fun x => SCol h0 (mc_alias x)) a
       /\ List.length a <= List.length b /\ map me_right es = map (fun x => SCol h (mc_alias x)) (firstn (List.length a) b)).
    { clear. induction a as [|x a IH]; intros b es E; [injection E as <-; repeat split; simpl; lia|].
      destruct b as [|y b]; [discriminate|]. cbn [eq_pairs] in E. apply bind_ok in E. destruct E as (r & R & E). injection E as <-.
      destruct (IH _ _ R) as (A & B & C). simpl. rewrite A, C. repeat split; lia. }
    destruct (G _ _ _ C) as (A1 & A2 & A3). split; [exact A1|]. intros _. exists second. split; [exact S|]. split; assumption.
Qed.
Print Assumptions C32_all_dimensions.

(** In BigQuery, and only there, two columns of different type are compared as timestamps. *)
Theorem C32_cast c h0 hs js h l first second : mf_hashes c = h0 :: hs -> build_from c = Ok js -> In (MOuter h (Some l)) js ->
  assoc h0 (mf_dims c) = Some first -> assoc h (mf_dims c) = Some second ->
  Forall2 (fun e xy => me_cast e = true <-> mf_type c = "BIGQUERY" /\ mc_datatype (fst xy) <> mc_datatype (snd xy)) l (combine first second).
Proof.
  intros H B I F S0. unfold build_from in B. rewrite H in B. apply bind_ok in B. destruct B as (js' & L & B). injection B as <-.
  destruct I as [I|I]; [discriminate|]. apply mapM_ok in L. destruct (Forall2_In_r _ _ _ L _ I) as (h' & _ & J). unfold join_one in J.
  destruct (_ && _); [discriminate|]. apply bind_ok in J. destruct J as (on & C & J). injection J as -> ->. unfold join_criteria in C.
  destruct (no_dimensions c); [discriminate|]. unfold dims_of in C. rewrite F, S0 in C. cbn [bind] in C.
  destruct first as [|x first]; [injection C as <-; constructor|]. apply bind_ok in C. destruct C as (es & E & C). injection C as ->.
  clear - E. revert second l E. generalize (x :: first). induction l as [|a l IH]; intros second es E; [injection E as <-; constructor|].
  destruct second as [|b second]; [discriminate|]. cbn [eq_pairs] in E. apply bind_ok in E. destruct E as (r & R & E). injection E as <-. cbn [combine]. constructor; [|exact (IH _ _ R)].
  cbn [me_cast fst snd]. rewrite andb_true_iff, String.eqb_eq, negb_true_iff.
  assert (Q : opt_str_eqb (mc_datatype a) (mc_datatype b) = false <-> mc_datatype a <> mc_datatype b).
  { destruct (mc_datatype a) as [u|], (mc_datatype b) as [v|]; cbn [opt_str_eqb]; [rewrite String.eqb_neq| | |]; split; congruence. }
  rewrite Q. reflexivity.
Qed.
Print Assumptions C32_cast.
(** A sub query whose dimensions were not handed over is a missing key. *)
Theorem C32_missing_dimensions c h0 h : no_dimensions c = false ->
  (assoc h0 (mf_dims c) = None -> join_criteria c h0 h = Err KeyError)
  /\ (forall x first, assoc h0 (mf_dims c) = Some (x :: first) -> assoc h (mf_dims c) = None -> join_criteria c h0 h = Err KeyError).
Proof.
  intros N. unfold join_criteria, dims_of. rewrite N. split; [intros ->; reflexivity|]. intros x first -> ->. reflexivity.
Qed.
Print Assumptions C32_missing_dimensions.
Example C32_cast_case :
  let d t a := MC a a a None (Some t) in
  build_from (MF "BIGQUERY" [] [("h1", [d "timestamp" "a"; d "string" "b"]); ("h2", [d "date" "c"; d "string" "e"])] ["h1"; "h2"] [] [])
  = Ok [MFrom "h1"; MOuter "h2" (Some [ME (SCol "h1" "a") (SCol "h2" "c") true; ME (SCol "h1" "b") (SCol "h2" "e") false])].
Proof. reflexivity. Qed.

(** ** Metrics computed from the merged ones: a column of their own text, unless the name is taken *)
Definition taken (c : mconf) (a : string) : Prop :=
  exists h f, (In (h, f) (flat_items (mf_metrics c)) \/ In (h, f) (flat_items (mf_dims c))) /\ mc_alias f = a.
Lemma set_item_keys {B} k (v : B) d x : In x (map fst (set_item k v d)) <-> x = k \/ In x (map fst d).
Proof.
  induction d as [|[k' v'] r IH]; simpl; [intuition|]. destruct (String.eqb_spec k k') as [->|N]; simpl; [intuition|].
  rewrite IH. intuition.
Qed.
Lemma dim_loop_keys c l : forall acc sel, dim_loop c acc l = Ok sel ->
  forall a, In a (map fst sel) <-> In a (map fst acc) \/ In a (map (fun p => mc_alias (snd p)) l).
Proof.
  induction l as [|[h f] r IH]; cbn [dim_loop]; intros acc sel H a; [injection H as <-; simpl; tauto|].
  apply bind_ok in H. destruct H as (acc' & A & B). rewrite (IH _ _ B). cbn [map snd].
  assert (K : In a (map fst acc') <-> a = mc_alias f \/ In a (map fst acc)).
  { unfold dim_step in A. destruct (entries_for c (mc_id f)) as [|e es].
    - injection A as <-. apply set_item_keys.
    - apply bind_ok in A. destruct A as (n & _ & A). injection A as <-. apply set_item_keys. }
  rewrite K. simpl. intuition.
Qed.
Lemma merged_cols_spec l : forall existing,
  (forall f s, In (f, s) l -> In (mc_alias f) existing \/ In (mc_alias f) (map fst (merged_cols existing l))) /\
  (forall a x, In (a, x) (merged_cols existing l) -> ~ In a existing) /\
  (forall a x, In (a, x) (merged_cols existing l) <->
    ~ In a existing /\ exists pre f s post, l = pre ++ (f, s) :: post /\ mc_alias f = a /\ x = SelText s /\
      forall f' s', In (f', s') pre -> mc_alias f' <> a).
Proof.
  induction l as [|[f s] r IH]; intros ex; cbn [merged_cols].
  - split; [intros ? ? []|]. split; [intros ? ? []|]. intros a x. split; [intros []|].
    intros (_ & pre & f & s & post & E & _). destruct pre; discriminate.
  - destruct (mem (mc_alias f) ex) eqn:M.
    + apply mem_In in M. destruct (IH ex) as (A & B & C). split; [|split; [exact B|]].
      * intros g t [E|I]; [injection E as <- <-; auto|eauto].
      * intros a x. rewrite C. split; intros (N & pre & g & t & post & E & Q1 & Q2 & Q3); (split; [exact N|]).
        -- exists ((f, s) :: pre), g, t, post. rewrite E. repeat (split; [auto|]). intros f' s' [X|X]; [|eauto].
           injection X as <- <-. intros X. apply N. rewrite <- X. exact M.
        -- destruct pre as [|p pre]; simpl in E; inversion E; subst.
           ++ exfalso. apply N. exact M.
           ++ exists pre, g, t, post. repeat (split; [auto|]). intros f' s' X. eapply Q3. right. eauto.
    + apply mem_false in M. destruct (IH (mc_alias f :: ex)) as (A & B & C). split; [|split].
      * intros g t [E|I]; [injection E as <- <-; right; left; reflexivity|].
        destruct (A g t I) as [[X|X]|X]; [right; left; auto|auto|right; right; auto].
      * intros a x [E|I]; [injection E as <- _; exact M|]. intros X. apply (B _ _ I). right; auto.
      * intros a x. split.
        -- intros [E|I].
           ++ injection E as <- <-. split; [exact M|]. exists [], f, s, r. repeat (split; [auto|]). intros ? ? [].
           ++ apply C in I. destruct I as (N & pre & g & t & post & E & Q1 & Q2 & Q3).
              split; [intros X; apply N; right; auto|]. exists ((f, s) :: pre), g, t, post. rewrite E.
              repeat (split; [auto|]). intros f' s' [X|X]; [|eauto]. injection X as <- <-. intros X. apply N. left; auto.
        -- intros (N & pre & g & t & post & E & Q1 & Q2 & Q3). destruct pre as [|p pre]; simpl in E; inversion E; subst.
           ++ left. reflexivity.
           ++ right. apply C. split.
              { intros [X|X]; [|auto]. exact (Q3 f s (or_introl eq_refl) X). }
              exists pre, g, t, post. repeat (split; [auto|]). intros f' s' X. eapply Q3. right. eauto.
Qed.
Theorem C32_merged_column c cols : select_columns c = Ok cols ->
  (forall f s, In (f, s) (mf_merged c) -> In (mc_alias f) (map fst cols)) /\
  (forall a s, In (a, SelText s) cols <->
     ~ taken c a /\ exists pre f post, mf_merged c = pre ++ (f, s) :: post /\ mc_alias f = a /\
       forall f' s', In (f', s') pre -> mc_alias f' <> a).
Proof.
  intros S. unfold select_columns in S. apply bind_ok in S. destruct S as (ds & D & S). injection S as <-.
  set (ms := map (fun p => (mc_alias (snd p), SelExpr (SCol (fst p) (mc_alias (snd p))))) (metric_select c)).
  assert (TK : forall a, In a (map fst ms ++ map fst ds) <-> taken c a).
  { intros a. rewrite in_app_iff. unfold dim_select in D. rewrite (dim_loop_keys _ _ _ _ D).
    assert (MM : In a (map fst ms) <-> exists h f, In (h, f) (flat_items (mf_metrics c)) /\ mc_alias f = a).
    { unfold ms. rewrite map_map. cbn [fst]. unfold metric_select, dedup_by. rewrite dedup_by_aux_keys, in_map_iff. split.
      - intros [((h & f) & E & I) _]. apply (proj1 (flat_sorted_In _ _)) in I. exists h, f. auto.
      - intros (h & f & I & E). split; [|intros []]. exists (h, f). split; [exact E|]. apply (proj2 (flat_sorted_In _ _)). exact I. }
    rewrite MM. change (In a (map fst [])) with False. rewrite in_map_iff. split.
    - intros [(h & f & I & E)|[[]|((h & f) & E & I)]]; exists h, f; (split; [|exact E]); [left; exact I|right].
      apply (proj1 (flat_sorted_In _ _)) in I. exact I.
    - intros (h & f & [I|I] & E); [left; eauto|right; right]. exists (h, f). split; [exact E|]. apply (proj2 (flat_sorted_In _ _)). exact I. }
  destruct (merged_cols_spec (mf_merged c) (map fst ms ++ map fst ds)) as (A & _ & C).
  split.
  - intros f s I. rewrite !map_app, map_map. cbn [fst]. destruct (A f s I) as [X|X].
    + rewrite app_assoc. apply in_or_app. left. exact X.
    + apply in_or_app. right. apply in_or_app. right. exact X.
  - intros a s. split.
    + intros I. apply in_app_or in I. destruct I as [I|I].
      { unfold ms in I. apply in_map_iff in I. destruct I as (p & E & _). discriminate. }
      apply in_app_or in I. destruct I as [I|I]; [apply in_map_iff in I; destruct I as (p & E & _); discriminate|].
      apply C in I. destruct I as (N & pre & f & t & post & E & Q1 & Q2 & Q3). injection Q2 as <-.
      split; [rewrite <- TK; exact N|]. exists pre, f, post. auto.
    + intros (N & pre & f & post & E & Q1 & Q3). apply in_or_app. right. apply in_or_app. right.
      apply C. split; [rewrite TK; exact N|]. exists pre, f, s, post. auto.
Qed.
Print Assumptions C32_merged_column.
(** Concrete case: computed metrics, the second under a name used before, the third under a metric's *)
Example C32_merged_column_case :
  let c := MF "SNOWFLAKE" (mf_metrics two) (mf_dims two) (mf_hashes two) []
              [(MC "rate" "rate" "rate" None None, "orders_revenue / sessions_count"); (MC "q.rate" "rate" "rate" None None, "0");
               (MC "x" "orders_revenue" "x" None None, "1")] in
  select_columns c = Ok
    [("orders_revenue", SelExpr (SCol "a" "orders_revenue")); ("sessions_count", SelExpr (SCol "b" "sessions_count"));
     ("customers_region", SelExpr (SIfNull (SCol "a" "customers_region") (SCol "b" "customers_region")));
     ("rate", SelText "orders_revenue / sessions_count")] /\
  taken c "orders_revenue" /\ ~ taken c "rate".
Proof.
  split; [vm_compute; reflexivity|]. split.
  - exists "a", m_rev. split; [left; left; reflexivity|reflexivity].
  - intros (h & f & [I|I] & E); simpl in I; destruct I as [I|[I|[]]]; injection I as <- <-; discriminate.
Qed.
