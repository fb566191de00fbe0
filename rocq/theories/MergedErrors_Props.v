(** C55: why the join graphs of a field cannot be told (core/model/join_graph.py:193-295, core/model/field.py:2750-2794). *)
From Coq Require Import List String Ascii Bool Arith Lia.
From Verif Require Import PyBase PyStr PyList JoinGraph_Model ModelMap_Model MergedGraph_Model MergedGraph_Spec.
Import ListNotations.
Local Open Scope string_scope.
Local Open Scope list_scope.

(** What stops the merged results of a model from being listed *)
Inductive blocks (P : mproj) (model : string) : exc -> Prop :=
| b_model : ~ In model (map fst (mp_models P)) -> blocks P model AccessDenied
| b_mappings e : In (model, Err e) (mp_models P) -> blocks P model e
| b_graph m : dated_measure P m -> (forall h, ~ in_graph P m h) -> blocks P model QueryError
| b_date m d e : dated_measure P m -> pf_canon m = Some d -> mp_by_name P d = Err e -> e <> AccessDenied -> blocks P model e
| b_frames m d c : dated_measure P m -> pf_canon m = Some d -> mp_by_name P d = Ok c -> cn_frames c = None -> blocks P model TypeError
| b_view v e : In v (mp_views P) -> mp_expanded P v = Err e -> blocks P model e
| b_mapped maps k en r x e : In (model, Ok maps) (mp_models P) -> In (k, en) maps -> In r (en_refs en) -> x = k \/ x = rf_field r ->
    mp_id P x = Err e -> blocks P model e.

Lemma dated_In P m : In m (dated P) -> dated_measure P m.
Proof.
  unfold dated, dated_measure. rewrite filter_In. destruct (pf_canon m); intros [A B]; [|discriminate]. repeat split; congruence.
Qed.
Lemma dates_err P model root must e : add_canon_dates P (dated P) root must = Err e -> blocks P model e.
Proof.
  unfold add_canon_dates. intro H. apply bind_err in H. destruct H as [H|[rs [_ H]]]; [|discriminate].
  apply mapM_err in H. destruct H as [m [I H]]. apply dated_In in I. unfold canon_step in H. apply bind_err in H. destruct H as [H|[h [_ H]]].
  - unfold join_graph_hash in H. destruct (find _ _) as [[i c]|] eqn:F; [discriminate|]. injection H as <-.
    apply (b_graph P model m I). intros h G. unfold in_graph, join_graph_hash in G. rewrite F in G. discriminate.
  - destruct (match must with Some l => mem h l | None => true end); [|discriminate].
    destruct (pf_canon m) as [d|] eqn:C; [|discriminate]. destruct (mp_by_name P d) as [c|e'] eqn:D.
    + destruct (cn_frames c) eqn:T; [discriminate|]. injection H as <-. eapply b_frames; eassumption.
    + assert (Q : e' <> AccessDenied /\ e' = e) by (destruct e'; (split; [discriminate | congruence]) || discriminate H).
      destruct Q as [N ->]. eapply b_date; eassumption.
Qed.
Lemma maps_err P model maps must roots b e : In (model, Ok maps) (mp_models P) -> add_mappings P maps must roots b = Err e -> blocks P model e.
Proof.
  intros M H. unfold add_mappings in H. apply concatM_err in H. destruct H as [[k en] [I H]]. cbn [fst snd] in H.
  destruct (en_canon en); [discriminate|]. destruct (b && _)%bool; [discriminate|].
  apply concatM_err in H. destruct H as [r [J H]]. unfold map_step in H. destruct (_ && _)%bool; [|discriminate].
  apply bind_err in H. destruct H as [H|[x [_ H]]]; [apply (b_mapped P model maps k en r k); auto|].
  apply bind_err in H. destruct H as [H|[y [_ H]]]; [apply (b_mapped P model maps k en r (rf_field r)); auto | discriminate].
Qed.
(** The merged results of a model are refused only for one of these reasons. *)
Theorem C55_merged_refused : forall P model e, build_merged P model = Err e -> blocks P model e.
Proof.
  intros P model e H. unfold build_merged in H. apply bind_err in H. destruct H as [H|[maps [M H]]].
  - unfold model_mappings in H. destruct (assoc model (mp_models P)) eqn:A.
    + subst. apply b_mappings. now apply assoc_In.
    + injection H as <-. apply b_model. now apply assoc_None.
  - assert (M' : In (model, Ok maps) (mp_models P)).
    { unfold model_mappings in M. destruct (assoc model (mp_models P)) eqn:A; [|discriminate]. subst. now apply assoc_In. }
    apply bind_err in H. destruct H as [H|[[[e0 roots] hs] [_ H]]]; [eapply dates_err; exact H|].
    apply bind_err in H. destruct H as [H|[e1 [_ H]]]; [eapply maps_err; eassumption|].
    apply bind_err in H. destruct H as [H|[e2 [_ H]]]; [|discriminate].
    apply concatM_err in H. destruct H as [[a b] [_ H]]. unfold pair_step in H.
    apply bind_err in H. destruct H as [H|[[[f0 rs] hs'] [_ H]]]; [eapply dates_err; exact H|].
    apply bind_err in H. destruct H as [H|[f1 [_ H]]].
    + unfold add_views in H. apply concatM_err in H. destruct H as [v [I H]]. destruct (_ && _)%bool; [|discriminate].
      apply bind_err in H. destruct H as [H|[ids [_ H]]]; [eapply b_view; eassumption | discriminate].
    + apply bind_err in H. destruct H as [H|[f2 [_ H]]]; [eapply maps_err; eassumption | discriminate].
Qed.
(** The join graphs of a field are refused only for a view without a model, for one of the reasons above when no merged results
    are kept yet, for a model the project no longer has, or for a measure in its sql whose date is not written view.name. *)
Theorem C55_refused : forall P kept f e, fst (join_graphs P kept f) = Err e ->
  (jf_model f = None /\ e = QueryError) \/
  exists model, jf_model f = Some model /\ is_cumulative f = false /\
    ((kept = None /\ blocks P model e) \/
     (kept <> None /\ ~ In model (map fst (mp_models P)) /\ 1 < List.length (mp_models P) /\ e = ValueError) \/
     (exists r d, In (Some r) (jf_sql f) /\ rf_canon r = Some d /\ List.length (split_char dot d) <> 2 /\ e = ValueError)).
Proof.
  intros P kept f e H. unfold join_graphs in H. destruct (jf_model f) as [model|] eqn:M; [|injection H as <-; auto].
  right. exists model. split; [reflexivity|]. destruct (is_cumulative f); [discriminate|]. split; [reflexivity|].
  destruct (merged_graph P kept model) as [es|e'] eqn:G.
  - cbn [fst] in H. apply bind_err in H. destruct H as [H|[ext [_ H]]].
    + right. left. assert (V : ~ In model (map fst (mp_models P)) /\ 1 < List.length (mp_models P) /\ e = ValueError).
      { unfold wrap in H. destruct (mp_models P) as [|a [|b r]] eqn:Q; try discriminate. rewrite <- Q in *. apply bind_err in H.
        destruct H as [H|[i [_ H]]]; [|discriminate]. split; [|split; [rewrite Q; cbn; lia|]].
        - clear -H. revert e H. induction (map fst (mp_models P)) as [|y l IH]; intros e H [].
          + subst. cbn in H. rewrite String.eqb_refl in H. discriminate.
          + cbn in H. destruct (String.eqb y model); [discriminate|]. apply bind_err in H. destruct H as [H|[i [_ H]]]; [eapply IH; eassumption | discriminate].
        - clear -H. induction (map fst (mp_models P)) as [|y l IH]; cbn in H; [congruence|].
          destruct (String.eqb y model); [discriminate|]. apply bind_err in H. destruct H as [H|[i [_ H]]]; [auto | discriminate]. }
      split; [|exact V]. intros ->. cbn [merged_graph] in G. unfold build_merged in G. apply bind_ok in G. destruct G as [maps [A _]].
      unfold model_mappings in A. destruct (assoc model (mp_models P)) eqn:S; [|discriminate]. apply assoc_In in S.
      apply (in_map fst) in S. now destruct V.
    + apply bind_err in H. destruct H as [H|[l [_ H]]]; [|discriminate]. right. right. unfold loses_join_ability in H.
      destruct (jf_explicit f); [discriminate|]. destruct (jf_number f); [|discriminate].
      apply bind_err in H. destruct H as [H|[ss [_ H]]]; [|discriminate].
      unfold canon_sets in H. apply concatM_err in H. destruct H as [[r|] [I H]]; [|discriminate].
      destruct (_ && _)%bool; [|discriminate]. destruct (rf_canon r) as [d|] eqn:C; [|discriminate]. exists r, d.
      split; [exact I|]. split; [exact C|]. destruct (split_char dot d) as [|x [|y [|z w]]]; try discriminate H; injection H as <-; (split; [cbn; lia | reflexivity]).
  - cbn [fst] in H. injection H as <-. left. destruct kept; [discriminate|]. split; [reflexivity|]. now apply C55_merged_refused.
Qed.
(** a date without timeframes; one the user cannot see, which is passed over; a model the project does not have *)
Example C55_refused_example :
  let p c := MProj [PField "o.n" "o" true (Some "o.at")] [] (fun _ => Ok []) (fun _ => c) (fun x => Ok x) [("o", [])] [("m", Ok [])] in
  let f m := JField "o.n" "o" m false false None None [] in
  fst (join_graphs (p (Ok (Canon "o" "at" None))) None (f (Some "m"))) = Err TypeError /\
  fst (join_graphs (p (Err AccessDenied)) None (f (Some "m"))) <> Err AccessDenied /\
  fst (join_graphs (p (Err QueryError)) None (f (Some "m"))) = Err QueryError /\
  fst (join_graphs (p (Err AccessDenied)) None (f (Some "other"))) = Err AccessDenied /\
  fst (join_graphs (p (Err AccessDenied)) None (f None)) = Err QueryError.
Proof. vm_compute. repeat split; discriminate. Qed.

Print Assumptions C55_merged_refused.
Print Assumptions C55_refused.
