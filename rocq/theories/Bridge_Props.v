(** C14, continued: which views are the bridges between others, from the identifiers the views declare. *)
From Coq Require Import Permutation.
From Verif Require Import PyBase PyStr PySort PyList JoinGraph_Model JoinGraph_Spec JoinOrder_Model JoinPick_Props.
Local Open Scope string_scope.
Local Open Scope list_scope.
Local Open Scope nat_scope.

(** * Specification *)
(** [w] is a view with the primary identifier [n] *)
Definition has_primary (vs : list gview) (n w : string) : Prop :=
  exists u j, In u vs /\ gv_name u = w /\ In j (gv_ids u) /\ ji_type j = TPrimary /\ ji_name j = n.
(** The view [u] declares an identifier made of others, and [group] has for each of them a view whose primary one it is *)
Definition ties (vs : list gview) (u : gview) (group : list string) : Prop :=
  exists i subs, In i (gv_ids u) /\ ji_type i <> TJoin /\ ji_subs i = Some subs /\ Forall2 (has_primary vs) subs group.
(** ... in alphabetical order *)
Definition ties_sorted vs u (k : list string) : Prop := exists group, ties vs u group /\ k = sort_str group.

(** * Proofs *)
Lemma list_eqb_eq a : forall b, list_eqb a b = true <-> a = b.
Proof.
  induction a as [|x a IH]; intros [|y b]; cbn [list_eqb]; try (split; congruence).
  rewrite andb_true_iff, String.eqb_eq, IH. split; [intros [-> ->]; reflexivity|intros E; now injection E].
Qed.
Lemma primary_In vs n w : In w (primary_key_map vs n) <-> has_primary vs n w.
Proof.
  unfold primary_key_map, has_primary. rewrite in_flat_map. split.
  - intros (u & U & I). apply in_flat_map in I. destruct I as (j & J & I).
    destruct (is_primary_type (ji_type j) && String.eqb (ji_name j) n) eqn:E; [|destruct I]. destruct I as [<-|[]].
    apply andb_true_iff in E. destruct E as [P N]. apply String.eqb_eq in N. exists u, j. repeat split; auto.
    destruct (ji_type j); try discriminate P; reflexivity.
  - intros (u & j & U & <- & J & P & N). exists u. split; [exact U|]. apply in_flat_map. exists j. split; [exact J|].
    rewrite P, N, String.eqb_refl. now left.
Qed.
Lemma product_In ls : forall g, In g (product ls) <-> Forall2 (fun l x => In x l) ls g.
Proof.
  induction ls as [|l ls IH]; intros g; cbn [product].
  - split; [intros [<-|[]]; constructor|intros H; inversion H; now left].
  - rewrite in_flat_map. split.
    + intros (x & X & I). apply in_map_iff in I. destruct I as (g' & <- & I). constructor; [exact X|now apply IH].
    + intros H. inversion H as [|? x ? g' X G]; subst. exists x. split; [exact X|]. apply in_map_iff. exists g'. split; [reflexivity|now apply IH].
Qed.
Definition view_entries vs v : list (list string * string) :=
  flat_map (fun i =>
    match is_join_type (ji_type i), ji_subs i with
    | false, Some subs => map (fun g => (sort_str g, gv_name v)) (product (map (primary_key_map vs) subs))
    | _, _ => []
    end) (gv_ids v).
Lemma view_entries_In vs u k w : In (k, w) (view_entries vs u) <-> w = gv_name u /\ ties_sorted vs u k.
Proof.
  unfold view_entries, ties_sorted, ties. rewrite in_flat_map. split.
  - intros (i & I & E). destruct (is_join_type (ji_type i)) eqn:T; [destruct E|]. destruct (ji_subs i) as [subs|] eqn:S; [|destruct E].
    apply in_map_iff in E. destruct E as (g & E & G). inversion E; subst. split; [reflexivity|]. exists g. split; [|reflexivity].
    exists i, subs. repeat split; auto; [intros X; rewrite X in T; discriminate T|]. apply product_In in G. clear -G.
    remember (map (primary_key_map vs) subs) as ls eqn:L. revert subs L. induction G as [|l x ls g X G IH]; intros [|s subs] L; try discriminate L; constructor.
    + cbn [map] in L. injection L as -> _. now apply primary_In.
    + cbn [map] in L. injection L as _ L. now apply IH.
  - intros (-> & g & (i & subs & I & T & S & F) & ->). exists i. split; [exact I|].
    assert (is_join_type (ji_type i) = false) as -> by (destruct (ji_type i); congruence || reflexivity). rewrite S.
    apply in_map_iff. exists g. split; [reflexivity|]. apply product_In. clear -F.
    induction F as [|s x subs g X F IH]; cbn [map]; constructor; [now apply primary_In|exact IH].
Qed.
Lemma upsert_key_In k v d : NoDup (map fst d) -> NoDup (map fst (upsert_key k v d)) /\
  (forall k' v', In (k', v') (upsert_key k v d) <-> (k' = k /\ v' = v) \/ (k' <> k /\ In (k', v') d)).
Proof.
  induction d as [|[k0 v0] d IH]; cbn [upsert_key map fst]; intros N.
  - split; [repeat constructor; intros []|]. intros k' v'. split; [intros [E|[]]; inversion E; now left|intros [[-> ->]|[_ []]]; now left].
  - inversion N as [|? ? N0 N1]; subst. destruct (list_eqb k k0) eqn:E.
    + apply list_eqb_eq in E. subst k0. split; [exact N|]. intros k' v'. split.
      * intros [X|I]; [inversion X; now left|]. right. split; [|now right]. intros ->. apply N0. now apply (in_map fst) in I.
      * intros [[-> ->]|[NE [X|I]]]; [now left|inversion X; congruence|now right].
    + assert (NE : k <> k0) by (intros ->; rewrite (proj2 (list_eqb_eq k0 k0) eq_refl) in E; discriminate).
      destruct (IH N1) as [U V]. cbn [map fst]. split.
      * constructor; [|exact U]. intros I. apply in_map_iff in I. destruct I as ([k1 v1] & X & I). cbn [fst] in X. subst k1.
        apply V in I. destruct I as [[-> _]|[_ I]]; [congruence|]. apply N0. now apply (in_map fst) in I.
      * intros k' v'. split.
        -- intros [X|I]; [inversion X; subst; right; split; [congruence|now left]|]. apply V in I. destruct I as [I|[A I]]; [now left|right; split; [exact A|now right]].
        -- intros [[-> ->]|[A [X|I]]]; [right; apply V; now left|now left|right; apply V; now right].
Qed.
Lemma fold_upsert es : forall d k v, NoDup (map fst d) ->
  (In (k, v) (fold_left (fun d e => upsert_key (fst e) (snd e) d) es d) <->
   (exists e1 e2, es = e1 ++ (k, v) :: e2 /\ ~ In k (map fst e2)) \/ (In (k, v) d /\ ~ In k (map fst es))).
Proof.
  induction es as [|[k0 v0] es IH]; intros d k v N; cbn [fold_left fst snd].
  - split; [intros I; right; split; [exact I|intros []]|intros [(e1 & e2 & E & _)|[I _]]; [destruct e1; discriminate E|exact I]].
  - destruct (upsert_key_In k0 v0 d N) as [U V]. rewrite (IH _ _ _ U). cbn [map fst]. rewrite V. split.
    + intros [(e1 & e2 & -> & M)|[[[-> ->]|[A I]] M]].
      * left. exists ((k0, v0) :: e1), e2. now split.
      * left. exists [], es. now split.
      * right. split; [exact I|]. intros [X|X]; [congruence|exact (M X)].
    + intros [(e1 & e2 & E & M)|[I M]].
      * destruct e1 as [|e e1]; cbn [app] in E; inversion E; subst.
        -- destruct (in_dec (list_eq_dec string_dec) k (map fst e2)) as [X|X]; [contradiction|]. right. split; [now left|exact X].
        -- left. now exists e1, e2.
      * right. split; [right; split; [intros ->; apply M; now left|exact I]|intros X; apply M; now right].
Qed.

(** C14: the views through which a group of views is joined are, for each group, the last view of the project that declares an
    identifier made of the primary identifiers of that group. *)
Theorem C14_bridges : forall vs k v, In (k, v) (composite_keys vs) <->
  exists pre u post, vs = pre ++ u :: post /\ gv_name u = v /\ ties_sorted vs u k /\ forall w, In w post -> ~ ties_sorted vs w k.
Proof.
  intros vs k v. unfold composite_keys. rewrite fold_upsert by constructor.
  change (composite_entries vs) with (flat_map (view_entries vs) vs).
  assert (G : forall l, (exists e1 e2, flat_map (view_entries vs) l = e1 ++ (k, v) :: e2 /\ ~ In k (map fst e2)) <->
    exists pre u post, l = pre ++ u :: post /\ gv_name u = v /\ ties_sorted vs u k /\ forall w, In w post -> ~ ties_sorted vs w k).
  { assert (K : forall l, In k (map fst (flat_map (view_entries vs) l)) <-> exists w, In w l /\ ties_sorted vs w k).
    { intros l. rewrite in_map_iff. split.
      - intros ([k' x] & E & I). cbn [fst] in E. subst k'. apply in_flat_map in I. destruct I as (w & W & I). apply view_entries_In in I. exists w. tauto.
      - intros (w & W & T). exists (k, gv_name w). split; [reflexivity|]. apply in_flat_map. exists w. split; [exact W|]. now apply view_entries_In. }
    induction l as [|u l IH]; cbn [flat_map].
    - split; [intros (e1 & e2 & E & _); destruct e1; discriminate E|intros (pre & u & post & E & _); destruct pre; discriminate E].
    - destruct (in_dec (list_eq_dec string_dec) k (map fst (flat_map (view_entries vs) l))) as [I|N].
      + split.
        * intros (e1 & e2 & E & M). destruct (proj1 IH) as (pre & w & post & -> & H).
          -- clear IH K. revert e1 E. induction (view_entries vs u) as [|e es IHe]; intros e1 E; cbn [app] in E; [now exists e1, e2|].
             destruct e1 as [|e' e1]; cbn [app] in E; inversion E; subst; [|now apply (IHe e1)].
             destruct M. rewrite map_app. apply in_or_app. now right.
          -- exists (u :: pre), w, post. split; [reflexivity|exact H].
        * intros (pre & w & post & E & A & T & L). destruct pre as [|u' pre]; cbn [app] in E; inversion E; subst.
          -- apply K in I. destruct I as (x & X & T'). destruct (L x X T').
          -- destruct (proj2 IH) as (e1 & e2 & -> & M); [now exists pre, w, post|]. exists (view_entries vs u' ++ e1), e2. split; [now rewrite <- app_assoc|exact M].
      + assert (NT : forall w, In w l -> ~ ties_sorted vs w k) by (intros w W T; apply N, K; now exists w).
        split.
        * intros (e1 & e2 & E & M). exists [], u, l. split; [reflexivity|].
          assert (I : In (k, v) (view_entries vs u)).
          { assert (J : In (k, v) (view_entries vs u ++ flat_map (view_entries vs) l)) by (rewrite E; apply in_or_app; right; now left).
            apply in_app_or in J. destruct J as [J|J]; [exact J|]. destruct N. now apply (in_map fst) in J. }
          apply view_entries_In in I. destruct I as [-> T]. now repeat split.
        * intros (pre & w & post & E & A & T & L). destruct pre as [|u' pre]; cbn [app] in E; inversion E; subst.
          2:{ destruct (NT w); [apply in_or_app; right; now left|exact T]. }
          clear E IH K. assert (I : In (k, gv_name w) (view_entries vs w)) by now apply view_entries_In.
          assert (VE : forall e, In e (view_entries vs w) -> snd e = gv_name w) by (intros [k' x] J; apply view_entries_In in J; now destruct J).
          assert (Q : exists e1 e2, view_entries vs w = e1 ++ (k, gv_name w) :: e2 /\ ~ In k (map fst e2)).
          { revert I VE. induction (view_entries vs w) as [|[k' x] es IHe]; intros I VE; [destruct I|].
            destruct (in_dec (list_eq_dec string_dec) k (map fst es)) as [J|J].
            - destruct IHe as (e1 & e2 & -> & M); [|intros e H; apply VE; now right|now exists ((k', x) :: e1), e2].
              apply in_map_iff in J. destruct J as ([k1 x1] & X & J). cbn [fst] in X. subst k1. rewrite <- (VE (k, x1)); [exact J|now right].
            - destruct I as [I|I]; [inversion I; subst; now exists [], es|]. destruct J. now apply (in_map fst) in I. }
          destruct Q as (e1 & e2 & -> & M). exists e1, (e2 ++ flat_map (view_entries vs) post). split; [now rewrite <- app_assoc|].
          rewrite map_app. intros X. apply in_app_or in X. destruct X as [X|X]; [exact (M X)|exact (N X)]. }
  rewrite (G vs). split; [intros [H|[[] _]]; exact H|now left].
Qed.
Print Assumptions C14_bridges.
(** C14: a join is preferred for a bridge only if the bridge declares an identifier made of others, one of which is the primary
    identifier of a required view. *)
Theorem C14_bridge_declared : forall vs req v, bridge (composite_keys vs) req v ->
  exists u i subs n r, In u vs /\ gv_name u = v /\ In i (gv_ids u) /\ ji_subs i = Some subs /\ In n subs /\ has_primary vs n r /\ In r req.
Proof.
  intros vs req v (k & r & I & R & Q). apply C14_bridges in I. destruct I as (pre & u & post & -> & N & (g & T & ->) & _).
  destruct T as (i & subs & I & _ & S & F). apply (proj1 (sort_str_In _ _)) in R.
  destruct (Forall2_In_r _ _ _ F r R) as (n & M & P). exists u, i, subs, n, r. repeat split; auto. apply in_or_app. right. now left.
Qed.
Print Assumptions C14_bridge_declared.

(** * Cases: two views tie customers and orders; the later one is the bridge *)
Definition tied (n : string) : gview :=
  GView n [JIdent "pair" TPrimary [] [] "" M2O "" None (Some ["order_id"; "customer_id"])].
Definition tied_views : list gview :=
  [GView "orders" [JIdent "order_id" TPrimary [] [] "" M2O "" None None; JIdent "customer_id" TForeign [] [] "" M2O "" None None];
   GView "customers" [JIdent "customer_id" TPrimary [] [] "" M2O "" None None]; tied "old_link"; tied "link"].
Example C14_bridges_case : composite_keys tied_views = [(["customers"; "orders"], "link")].
Proof. reflexivity. Qed.
Example C14_bridge_case : bridge (composite_keys tied_views) ["customers"; "lines"] "link".
Proof. exists ["customers"; "orders"], "customers". repeat split; now left. Qed.
(** C14: a view that ties required views is not tried first when a later view ties the same ones. *)
Theorem C14_hidden_bridge_refuted : exists vs u req, In u vs /\ ties vs u req /\ ~ bridge (composite_keys vs) req (gv_name u).
Proof.
  exists tied_views, (tied "old_link"), ["orders"; "customers"]. split; [cbn; tauto|]. split.
  - eexists. exists ["order_id"; "customer_id"]. split; [left; reflexivity|]. split; [discriminate|]. split; [reflexivity|].
    constructor; [|constructor; [|constructor]].
    + eexists. eexists. split; [left; reflexivity|]. split; [reflexivity|]. split; [left; reflexivity|]. split; reflexivity.
    + eexists. eexists. split; [right; left; reflexivity|]. split; [reflexivity|]. split; [left; reflexivity|]. split; reflexivity.
  - intros (k & r & I & _). cbn in I. destruct I as [I|[]]. discriminate I.
Qed.
Print Assumptions C14_hidden_bridge_refuted.
