(** Specification and property theorems: C41, listing the fields of a view. *)
From Coq Require Import List String Bool Lia.
From Verif Require Import PyBase PyStr ViewFields_Model.
Import ListNotations.
Local Open Scope string_scope.
Local Open Scope list_scope.

(** ** Specification *)
(** what a definition contributes: itself, or when expanding one field per timeframe or per interval *)
Inductive entry (expand : bool) (f : fdef) : vfield -> Prop :=
| entry_plain : expand && fd_group f = false -> entry expand f (VField (fd_name f) None (fd_hidden f))
| entry_raw : expand = true -> fd_group f = true -> In "raw" (fd_timeframes f) -> entry expand f (VField (fd_name f) (Some "raw") true)
| entry_time t : expand = true -> fd_group f = true -> In t (fd_timeframes f) -> t <> "raw" -> entry expand f (VField (fd_name f) (Some t) (fd_hidden f))
| entry_interval i : expand = true -> fd_group f = true -> fd_timeframes f = [] -> In i (fd_intervals f) ->
    entry expand f (VField (fd_name f) (Some (i ++ "s")%string) (fd_hidden f)).
Definition listed (defs : list fdef) (show_hidden expand : bool) (v : vfield) : Prop :=
  exists f, In f defs /\ fd_access f = true /\ entry expand f v /\ (show_hidden = false -> vf_hidden v = false).

Lemma all_fields_In defs e v : In v (all_fields defs e) <-> exists f, In f defs /\ fd_access f = true /\ entry e f v.
Proof.
  unfold all_fields. rewrite in_flat_map. split.
  - intros [f [I H]]. exists f. unfold field_entries in H. destruct (fd_access f); [|destruct H]. repeat split; auto.
    destruct (e && fd_group f) eqn:EG.
    + apply andb_true_iff in EG. destruct EG as [-> G]. destruct (fd_timeframes f) as [|t ts] eqn:T.
      * apply in_map_iff in H. destruct H as [i [<- J]]. now apply entry_interval.
      * rewrite <- T in H. apply in_map_iff in H. destruct H as [u [<- J]]. destruct (String.eqb_spec u "raw") as [->|N]; [now apply entry_raw|now apply entry_time].
    + destruct H as [<-|[]]. now apply entry_plain.
  - intros [f [I [A H]]]. exists f. split; auto. unfold field_entries. rewrite A. destruct H as [E|E G T|t E G T N|i E G T J].
    + rewrite E. now left.
    + rewrite E, G. cbn [andb]. destruct (fd_timeframes f) as [|t ts] eqn:Q; [destruct T|]. rewrite <- Q in *. apply in_map_iff. exists "raw". auto.
    + rewrite E, G. cbn [andb]. destruct (fd_timeframes f) as [|t' ts] eqn:Q; [destruct T|]. rewrite <- Q in *. apply in_map_iff. exists t. split; auto.
      destruct (String.eqb_spec t "raw"); [contradiction|reflexivity].
    + rewrite E, G, T. cbn [andb]. apply in_map_iff. eauto.
Qed.

Definition fresh (defs : list fdef) (h e : bool) : list vfield := fst (fields defs [] h e).

(** The first call on a view gives what its arguments say. *)
Theorem C41_first_call : forall defs h e v, In v (fresh defs h e) <-> listed defs h e v.
Proof.
  intros defs h e v. unfold fresh, fields, listed. cbn [fst]. destruct h.
  - rewrite all_fields_In. split; [intros [f [A [B C]]]; exists f; repeat split; auto; discriminate|intros [f [A [B [C _]]]]; exists f; auto].
  - rewrite filter_In, all_fields_In, negb_true_iff. split.
    + intros [[f [A [B C]]] H]. exists f. auto.
    + intros [f [A [B [C H]]]]. split; eauto.
Qed.
Print Assumptions C41_first_call.
(** in the order of the definitions, without expansion one field each *)
Theorem C41_unexpanded : forall defs, fresh defs true false = map (fun f => VField (fd_name f) None (fd_hidden f)) (filter fd_access defs).
Proof.
  intros defs. unfold fresh, fields. cbn [fst]. unfold all_fields. induction defs as [|f defs IH]; [reflexivity|]. cbn [flat_map filter]. rewrite IH.
  unfold field_entries. cbn [andb]. destruct (fd_access f); reflexivity.
Qed.
Print Assumptions C41_unexpanded.
(** expanded, one field for each timeframe or interval *)
Theorem C41_expanded : forall defs,
  List.length (fresh defs true true)
  = list_sum (map (fun f => if fd_group f then match fd_timeframes f with [] => List.length (fd_intervals f) | l => List.length l end else 1) (filter fd_access defs)).
Proof.
  intros defs. unfold fresh, fields. cbn [fst]. unfold all_fields. induction defs as [|f defs IH]; [reflexivity|]. cbn [flat_map filter]. rewrite app_length, IH.
  unfold field_entries. cbn [andb]. destruct (fd_access f); [|reflexivity]. cbn [map list_sum fold_right]. f_equal.
  destruct (fd_group f); [|reflexivity]. destruct (fd_timeframes f); rewrite map_length; reflexivity.
Qed.
Print Assumptions C41_expanded.

(** Calls that all use the same flag for expansion do not influence each other. *)
Theorem C41_history_partial : forall defs calls h e, (forall c, In c calls -> snd c = e) ->
  fst (fields defs (history defs [] calls) h e) = fresh defs h e.
Proof.
  intros defs calls h e H.
  assert (M : forall calls m, (forall c, In c calls -> snd c = e) -> m = [] \/ m = all_fields defs e -> history defs m calls = [] \/ history defs m calls = all_fields defs e).
  { clear. induction calls as [|[h' e'] calls IH]; intros m H Hm; auto. cbn [history]. apply IH; [intros c I; apply H; now right|].
    assert (e' = e) as -> by (apply (H (h', e')); now left). unfold fields. cbn [snd]. destruct m as [|x m]; auto. }
  unfold fresh, fields. cbn [fst]. destruct (M calls [] H (or_introl eq_refl)) as [E|E]; rewrite E; [reflexivity|]. destruct (all_fields defs e); reflexivity.
Qed.
Print Assumptions C41_history_partial.

Definition order_defs : list fdef := [FDef "id" false [] [] false true; FDef "order" true ["raw"; "date"; "week"] [] false true; FDef "waiting" true [] ["day"; "hour"] true true; FDef "secret" false [] [] false false].
Example expanded_example : map (fun f => (vf_name f, vf_group f)) (fresh order_defs false true) = [("id", None); ("order", Some "date"); ("order", Some "week")].
Proof. reflexivity. Qed.
(** After a call with the other flag the answer is the earlier one's: asking for the primary key (which expands,
    view.py:195) makes fields() give one field per timeframe, and the reverse. *)
Theorem C41_history_refuted :
  fst (fields order_defs (history order_defs [] [(true, true)]) true false) <> fresh order_defs true false
  /\ fst (fields order_defs (history order_defs [] [(true, false)]) true true) <> fresh order_defs true true.
Proof. split; cbn; discriminate. Qed.
Print Assumptions C41_history_refuted.
