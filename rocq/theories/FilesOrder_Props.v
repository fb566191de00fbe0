(** C61: the folders a project is read from, the kinds of files, and the order in which dumping writes fields and keys. *)
From Coq Require Import List String Ascii ZArith Bool Lia Permutation.
From Verif Require Import PyBase PyStr PyList Files_Model Files_Props.
Import ListNotations.
Local Open Scope string_scope.
Local Open Scope list_scope.
Local Open Scope nat_scope.

(** ** Specification *)

(** Where a path of the project file is: an absolute one where it says, any other below the project *)
Inductive placed (root : string) : string -> string -> Prop :=
| PAbsolute r : placed root ("/" ++ r)%string ("/" ++ r)%string
| PRelative p : (forall r, p <> ("/" ++ r)%string) -> placed root p (root ++ p)%string.

(** The documented orders of keys, docs of project_dumper.py:44-60, 82-104, 113-122 *)
Definition view_keys : list string :=
  ["version"; "type"; "name"; "label"; "description"; "model_name"; "sql_table_name"; "default_date"; "row_label";
   "extends"; "extension"; "required_access_grants"; "sets"; "identifiers"; "fields"].
Definition field_keys : list string :=
  ["name"; "field_type"; "type"; "datatype"; "hidden"; "primary_key"; "label"; "view_label"; "description";
   "required_access_grants"; "value_format_name"; "drill_fields"; "sql_distinct_key"; "tiers"; "timeframes";
   "intervals"; "sql_start"; "sql_end"; "sql"; "filters"; "extra"].
Definition model_keys : list string :=
  ["version"; "type"; "name"; "label"; "connection"; "fiscal_month_offset"; "week_start_day"; "access_grants"].
(** The keys of [d] with the known ones first, in the order [known] *)
Definition arranged (known keys : list string) : list string :=
  filter (fun k => mem k keys) known ++ filter (fun k => negb (mem k known)) keys.

(** The fields of one type whose name has id in it, or has not *)
Definition in_group (t : string) (id : bool) (d : ydict) : bool :=
  match assoc "field_type" d, assoc "name" d with
  | Some (YStr t'), Some (YStr n) => String.eqb t' t && Bool.eqb (contains "id" n) id
  | _, _ => false
  end.
Definition groups : list (string * bool) :=
  [("dimension", true); ("dimension", false); ("dimension_group", true); ("dimension_group", false); ("measure", true); ("measure", false)].
(** A field the dumper can place *)
Definition placeable (d : ydict) : Prop :=
  exists t n, assoc "field_type" d = Some (YStr t) /\ In t ["dimension"; "dimension_group"; "measure"] /\ assoc "name" d = Some (YStr n).

(** ** Folders *)
Lemma abs_path_placed root p : placed root p (abs_path root p).
Proof.
  unfold abs_path. destruct (starts_with "/" p) eqn:E.
  - unfold starts_with in E. destruct p as [|c p]; [discriminate|]. cbn [strip_prefix] in E.
    destruct (Ascii.eqb_spec "/" c) as [<-|]; [|discriminate]. apply (PAbsolute root p).
  - apply PRelative. intros r ->. discriminate E.
Qed.
Lemma placed_map root l : Forall2 (placed root) l (map (abs_path root) l).
Proof. induction l; cbn [map]; constructor; [apply abs_path_placed|assumption]. Qed.
(** C61: a project is read from the folders of its models, of its views and, if it names any, of its dashboards. *)
Theorem C61_folders : forall root z ms vs, assoc "model-paths" z = Some ms -> assoc "view-paths" z = Some vs ->
  exists fs, all_folders root (Some z) = Ok fs
    /\ Forall2 (placed root) (ms ++ vs ++ match assoc "dashboard-paths" z with Some ds => ds | None => [] end) fs.
Proof.
  intros root z ms vs M V. unfold all_folders, get_folders. rewrite M, V. cbn [bind].
  destruct (assoc "dashboard-paths" z) as [ds|]; cbn [bind]; eexists; (split; [reflexivity|]);
    repeat apply Forall2_app; try apply placed_map.
Qed.
(** C61: a project file without the folders of models or of views is refused. *)
Theorem C61_folders_missing : forall root z, assoc "model-paths" z = None \/ assoc "view-paths" z = None ->
  all_folders root (Some z) = Err KeyError.
Proof.
  intros root z H. unfold all_folders, get_folders. destruct (assoc "model-paths" z); cbn [bind]; [|reflexivity].
  destruct H as [H|H]; [discriminate|]. now rewrite H.
Qed.
Print Assumptions C61_folders.
Print Assumptions C61_folders_missing.

(** ** Kinds *)
(** C61: a file is a model, a view or a dashboard by the text of its type and by nothing else; every other file is ignored. *)
Theorem C61_kinds : forall root f order ms vs ds, load root f order = Ok (ms, vs, ds) ->
  forall t l, In (t, l) [("model", ms); ("view", vs); ("dashboard", ds)] -> forall d,
    In d l <-> assoc "type" d = Some (YStr t)
               /\ exists p c, In p order /\ assoc p f = Some (YMap c) /\ d = yset "_file_path" (YStr (relpath root p)) c.
Proof.
  intros root f order ms vs ds L t l I d. unfold load in L. apply bind_ok in L. destruct L as (all & M & E).
  inversion E; subst ms vs ds; clear E. apply mapM_ok in M.
  assert (R : In d all <-> exists p c, In p order /\ assoc p f = Some (YMap c) /\ d = yset "_file_path" (YStr (relpath root p)) c).
  { split.
    - intros J. destruct (Forall2_In_r _ _ _ M d J) as (p & P & X). unfold read_file in X.
      destruct (assoc p f) as [y|] eqn:A; [|discriminate]. destruct y; try discriminate. injection X as <-. now exists p, d0.
    - intros (p & c & P & A & ->). destruct (Forall2_In_l _ _ _ M p P) as (y & Y & X). unfold read_file in X. rewrite A in X.
      injection X as <-. exact Y. }
  assert (T : has_type t d = true <-> assoc "type" d = Some (YStr t)).
  { unfold has_type. destruct (assoc "type" d) as [y|]; [|split; discriminate].
    destruct y; try (split; discriminate). rewrite String.eqb_eq. split; [intros ->; reflexivity|intros X; now injection X]. }
  assert (K : l = filter (has_type t) all) by (cbn [In] in I; destruct I as [I|[I|[I|[]]]]; inversion I; subst; reflexivity).
  rewrite K, filter_In, R, T. tauto.
Qed.
Print Assumptions C61_kinds.

(** ** Keys *)
Lemma pick_keys (d : ydict) l : map fst (flat_map (fun k => match assoc k d with Some v => [(k, v)] | None => [] end) l) = filter (fun k => mem k (map fst d)) l.
Proof.
  induction l as [|k l IH]; [reflexivity|]. cbn [flat_map filter]. rewrite map_app, IH.
  destruct (assoc k d) as [v|] eqn:A.
  - assert (mem k (map fst d) = true) as ->; [|reflexivity]. apply mem_In. destruct (in_dec string_dec k (map fst d)) as [I|N]; [exact I|]. apply assoc_none_keys in N. congruence.
  - assert (mem k (map fst d) = false) as ->; [|reflexivity]. apply mem_false. now apply assoc_none_keys.
Qed.
Lemma sort_keys_arranged order d : map fst (sort_keys order d) = arranged order (map fst d).
Proof.
  unfold sort_keys, arranged. rewrite pick_keys, filter_app. f_equal.
  assert (G : forall l, (forall k, In k l -> In k (map fst d)) -> filter (fun k => mem k (map fst d)) (filter (fun k => negb (mem k order)) l) = filter (fun k => negb (mem k order)) l).
  { induction l as [|k l IH]; [reflexivity|]. intros H. cbn [filter]. destruct (negb (mem k order)); [|apply IH; intros; apply H; now right].
    cbn [filter]. assert (mem k (map fst d) = true) as -> by (apply mem_In, H; now left). f_equal. apply IH. intros; apply H; now right. }
  apply G. auto.
Qed.
Lemma keys_yset_same k v d : assoc k d <> None -> map fst (yset k v d) = map fst d.
Proof.
  intros H. unfold yset. destruct (assoc k d); [|congruence]. rewrite map_map. apply map_ext. intros [a w]. cbn [fst].
  destruct (String.eqb_spec k a) as [->|]; reflexivity.
Qed.
(** C61: views, models and fields are written with the known keys first, in the documented order, and then their other keys
    in their own order. *)
Theorem C61_view_keys : forall v w, sort_view v = Ok w -> map fst w = arranged view_keys (map fst v).
Proof.
  intros v w. unfold sort_view. destruct (assoc "fields" v) as [f|] eqn:F.
  - destruct (sort_fields f) as [g|]; [|discriminate]. cbn [bind]. intros E. injection E as <-.
    rewrite sort_keys_arranged, keys_yset_same by congruence. reflexivity.
  - intros E. injection E as <-. apply sort_keys_arranged.
Qed.
Theorem C61_model_keys : forall m, map fst (sort_model m) = arranged model_keys (map fst m).
Proof. intros m. apply sort_keys_arranged. Qed.
Print Assumptions C61_view_keys.
Print Assumptions C61_model_keys.

(** ** The order of fields *)
Lemma insert_between x a b : (forall y, In y a -> fst y < fst x) -> (forall y, In y b -> fst x <= fst y) -> insert_by x (a ++ b) = a ++ x :: b.
Proof.
  intros A B. induction a as [|y a IH]; cbn [app].
  - destruct b as [|y b]; [reflexivity|]. cbn [insert_by]. now rewrite (proj2 (Nat.leb_le _ _) (B y (or_introl eq_refl))).
  - cbn [insert_by]. assert (Nat.leb (fst x) (fst y) = false) as -> by (apply Nat.leb_gt, A; now left).
    f_equal. apply IH. intros z Z. apply A. now right.
Qed.
Definition at_key (k : nat) (x : nat * ydict) : bool := Nat.eqb (fst x) k.
Lemma at_keys l ks : forall y, In y (flat_map (fun k => filter (at_key k) l) ks) -> In (fst y) ks.
Proof.
  intros y I. apply in_flat_map in I. destruct I as (k & K & I). apply filter_In in I. destruct I as [_ I].
  unfold at_key in I. apply Nat.eqb_eq in I. now rewrite I.
Qed.
Lemma sorted_by_key N l : (forall x, In x l -> fst x < N) -> fold_right insert_by [] l = flat_map (fun k => filter (at_key k) l) (seq 0 N).
Proof.
  induction l as [|x l IH]; intros H.
  - cbn [fold_right]. induction (seq 0 N) as [|a q IHq]; [reflexivity|]. cbn [flat_map filter app]. exact IHq.
  - cbn [fold_right]. rewrite IH by (intros; apply H; now right). pose proof (H x (or_introl eq_refl)) as X.
    assert (SP : seq 0 N = seq 0 (fst x) ++ fst x :: seq (S (fst x)) (N - S (fst x))).
    { change (fst x :: seq (S (fst x)) (N - S (fst x))) with (seq (0 + fst x) (S (N - S (fst x)))). rewrite <- seq_app. f_equal. lia. }
    rewrite SP.
    rewrite !flat_map_app. cbn [flat_map].
    assert (O : forall ks, ~ In (fst x) ks -> flat_map (fun k => filter (at_key k) (x :: l)) ks = flat_map (fun k => filter (at_key k) l) ks).
    { induction ks as [|k ks IHk]; [reflexivity|]. intros NI. cbn [flat_map]. rewrite IHk by (intros J; apply NI; now right). f_equal.
      cbn [filter]. unfold at_key at 1. destruct (Nat.eqb_spec (fst x) k) as [Q|]; [destruct NI; left; symmetry; exact Q|reflexivity]. }
    rewrite !O by (rewrite in_seq; lia). cbn [filter].
    assert (at_key (fst x) x = true) as -> by apply Nat.eqb_refl. cbn [app]. apply insert_between.
    + intros y I. apply at_keys in I. apply in_seq in I. lia.
    + intros y I. apply in_app_or in I. destruct I as [I|I].
      * apply filter_In in I. destruct I as [_ I]. unfold at_key in I. apply Nat.eqb_eq in I. lia.
      * apply at_keys in I. apply in_seq in I. lia.
Qed.

Definition group_at (k : nat) : string * bool := nth k groups ("", false).
Lemma field_key_spec d k : field_key d = Ok k -> k < 6 /\ placeable d /\ forall j, j < 6 -> in_group (fst (group_at j)) (snd (group_at j)) d = Nat.eqb k j.
Proof.
  unfold field_key, in_group, placeable. destruct (assoc "field_type" d) as [t|]; [|discriminate]. intros H. apply bind_ok in H. destruct H as (i & T & H).
  destruct (assoc "name" d) as [n|]; [|discriminate]. destruct n as [|n| | | |]; try discriminate. injection H as <-.
  destruct t as [|t| | | |]; try discriminate. cbn [type_index] in T.
  destruct (String.eqb_spec t "dimension") as [->|N0]; [injection T as <-|destruct (String.eqb_spec t "dimension_group") as [->|N1]; [injection T as <-|destruct (String.eqb_spec t "measure") as [->|N2]; [injection T as <-|discriminate]]].
  all: split; [destruct (contains "id" n); cbn; lia|]; split; [eexists; exists n; split; [reflexivity|]; split; [cbn; tauto|reflexivity]|].
  all: intros j J; destruct (contains "id" n); do 6 (destruct j as [|j]; [reflexivity|]); lia.
Qed.
(** C61: the fields of a view are written dimensions first, then dimension groups, then measures, and among those of one type the
    ones with id in the name come first; otherwise they stay in their order.  Every field keeps its keys and values, its known
    keys first. *)
Theorem C61_field_order : forall ds out, sort_fields (YList (map YMap ds)) = Ok out ->
  exists es, out = YList (map YMap es)
    /\ Forall2 (fun d e => same_dict d e /\ map fst e = arranged field_keys (map fst d))
               (flat_map (fun g => filter (in_group (fst g) (snd g)) ds) groups) es
    /\ Forall placeable ds.
Proof.
  intros ds out H. unfold sort_fields in H. apply bind_ok in H. destruct H as (ds' & A & H).
  assert (ds' = ds).
  { apply as_map_all in A. clear -A. revert ds' A. induction ds as [|d ds IH]; intros [|d' ds'] A; try discriminate A; [reflexivity|].
    cbn [map] in A. injection A as -> A. f_equal. now apply IH. }
  subst ds'. clear A. apply bind_ok in H. destruct H as (keyed & K & H). injection H as <-.
  pose proof (keyed_all _ _ K) as S. apply mapM_ok in K.
  assert (KK : Forall (fun x => field_key (snd x) = Ok (fst x)) keyed).
  { clear -K. induction K as [|d x l l' E K IH]; constructor; [|exact IH]. destruct (field_key d) as [k|] eqn:F; [|discriminate E].
    cbn [bind] in E. injection E as <-. exact F. }
  exists (map (fun x => sort_keys field_key_order (snd x)) (fold_right insert_by [] keyed)).
  split; [now rewrite map_map|]. split.
  - rewrite (sorted_by_key 6).
    2:{ intros x I. rewrite Forall_forall in KK. exact (proj1 (field_key_spec _ _ (KK x I))). }
    assert (G : forall k, k < 6 -> filter (in_group (fst (group_at k)) (snd (group_at k))) ds = map snd (filter (at_key k) keyed)).
    { intros k L. rewrite <- S. clear -KK L. induction KK as [|x l E KK IH]; [reflexivity|]. cbn [map filter].
      rewrite (proj2 (proj2 (field_key_spec _ _ E)) k L). unfold at_key at 1. destruct (Nat.eqb (fst x) k); cbn [map]; rewrite IH; reflexivity. }
    replace (flat_map (fun g => filter (in_group (fst g) (snd g)) ds) groups) with (map snd (flat_map (fun k => filter (at_key k) keyed) (seq 0 6))).
    + generalize (flat_map (fun k => filter (at_key k) keyed) (seq 0 6)). intros l. induction l as [|x l IH]; cbn [map]; constructor; [|exact IH].
      split; [intros k; symmetry; apply assoc_sort_keys|apply sort_keys_arranged].
    + cbn [seq flat_map groups fst snd]. rewrite !map_app.
      rewrite <- (G 0), <- (G 1), <- (G 2), <- (G 3), <- (G 4), <- (G 5) by lia. reflexivity.
  - rewrite <- S. clear -KK. induction KK as [|x l E KK IH]; constructor; [|exact IH]. exact (proj1 (proj2 (field_key_spec _ _ E))).
Qed.
Print Assumptions C61_field_order.

(** C61: a view is not written when its fields are not a list of dicts, when a field has no type or no name, or when the type of
    a field is none of the three; nothing is skipped silently. *)
Theorem C61_fields_refused : forall f,
  ((forall l, f <> YList l) -> sort_fields f = Err TypeError)
  /\ (forall l x, f = YList l -> In x l -> (forall d, x <> YMap d) -> sort_fields f = Err TypeError)
  /\ (forall d ds, f = YList (map YMap (d :: ds)) -> assoc "field_type" d = None -> sort_fields f = Err KeyError)
  /\ (forall d ds t, f = YList (map YMap (d :: ds)) -> assoc "field_type" d = Some t ->
        (forall u, In u ["dimension"; "dimension_group"; "measure"] -> t <> YStr u) -> sort_fields f = Err ValueError)
  /\ (forall d ds t, f = YList (map YMap (d :: ds)) -> assoc "field_type" d = Some (YStr t) ->
        In t ["dimension"; "dimension_group"; "measure"] -> assoc "name" d = None -> sort_fields f = Err KeyError).
Proof.
  assert (M : forall ds, mapM as_map (map YMap ds) = Ok ds) by (induction ds as [|d ds IH]; [reflexivity|]; cbn [map mapM as_map bind]; rewrite IH; reflexivity).
  assert (H : forall d ds e, field_key d = Err e -> sort_fields (YList (map YMap (d :: ds))) = Err e).
  { intros d ds e E. unfold sort_fields. rewrite M. cbn [bind mapM]. rewrite E. reflexivity. }
  intros f. split; [|split; [|split; [|split]]].
  - intros N. destruct f; try reflexivity. destruct (N l eq_refl).
  - intros l x -> I N. unfold sort_fields. assert (mapM as_map l = Err TypeError) as ->; [|reflexivity].
    induction l as [|y l IH]; [destruct I|]. cbn [mapM]. destruct y; try reflexivity. cbn [as_map bind].
    rewrite IH; [reflexivity|]. destruct I as [I|I]; [|exact I]. destruct (N d). now symmetry.
  - intros d ds -> T. apply H. unfold field_key. now rewrite T.
  - intros d ds t -> T N. apply H. unfold field_key. rewrite T. assert (type_index t = Err ValueError) as ->; [|reflexivity].
    destruct t as [|t| | | |]; try reflexivity. cbn [type_index].
    destruct (String.eqb_spec t "dimension") as [->|]; [destruct (N "dimension"); cbn; tauto|].
    destruct (String.eqb_spec t "dimension_group") as [->|]; [destruct (N "dimension_group"); cbn; tauto|].
    destruct (String.eqb_spec t "measure") as [->|]; [destruct (N "measure"); cbn; tauto|]. reflexivity.
  - intros d ds t -> T I N. apply H. unfold field_key. rewrite T, N.
    cbn [In] in I. destruct I as [<-|[<-|[<-|[]]]]; reflexivity.
Qed.
Print Assumptions C61_fields_refused.
(** C61: the file an object is written to: its own one, below the project unless absolute, or one named after it in the folder of
    its kind; an own file or a name that is no text is refused. *)
Theorem C61_target : forall root folder suffix d,
  (forall p, assoc "_file_path" d = Some (YStr p) -> exists q, target root folder suffix d = Ok q /\ placed root p q)
  /\ (forall y, assoc "_file_path" d = Some y -> (forall p, y <> YStr p) -> target root folder suffix d = Err TypeError)
  /\ (forall n, assoc "_file_path" d = None -> assoc "name" d = Some (YStr n) ->
        exists q, placed root folder q /\
          (target root folder suffix d = Ok (q ++ "/" ++ n ++ suffix)%string \/ ((exists r, q = (r ++ "/")%string) /\ target root folder suffix d = Ok (q ++ n ++ suffix)%string)))
  /\ (forall y, assoc "_file_path" d = None -> assoc "name" d = Some y -> (forall p, y <> YStr p) -> target root folder suffix d = Err TypeError)
  /\ (assoc "_file_path" d = None -> assoc "name" d = None -> target root folder suffix d = Err KeyError).
Proof.
  intros root folder suffix d. unfold target. split; [|split; [|split; [|split]]].
  - intros p ->. eexists. split; [reflexivity|apply abs_path_placed].
  - intros y -> N. destruct y; try reflexivity. destruct (N s eq_refl).
  - intros n -> ->. exists (abs_path root folder). split; [apply abs_path_placed|]. unfold path_join.
    destruct (ends_with "/" (abs_path root folder)) eqn:E; [right|left; reflexivity]. split; [|reflexivity].
    revert E. generalize (abs_path root folder). clear. induction s as [|c s IH]; [discriminate|].
    cbn [ends_with]. destruct (String.eqb_spec "/" (String c s)) as [E|]; [intros _; exists ""; exact (eq_sym E)|].
    cbn [orb]. intros E. destruct (IH E) as [r ->]. now exists (String c r).
  - intros y -> -> N. destruct y; try reflexivity. destruct (N s eq_refl).
  - intros -> ->. reflexivity.
Qed.
Print Assumptions C61_target.

(** ** Cases *)
Example C61_folders_case : all_folders "/p/" (Some [("view-paths", ["v"; "/x/v"]); ("model-paths", ["m"])]) = Ok ["/p/m"; "/p/v"; "/x/v"]
  /\ all_folders "/p/" (Some [("model-paths", ["m"])]) = Err KeyError.
Proof. split; reflexivity. Qed.
Example C61_field_order_case :
  let f t n := YMap [("field_type", YStr t); ("name", YStr n)] in let g t n := YMap [("name", YStr n); ("field_type", YStr t)] in
  sort_fields (YList [f "measure" "a"; f "dimension" "b"; f "dimension_group" "c"; f "dimension" "user_id"; f "dimension" "d"])
  = Ok (YList [g "dimension" "user_id"; g "dimension" "b"; g "dimension" "d"; g "dimension_group" "c"; g "measure" "a"]).
Proof. reflexivity. Qed.
Example C61_view_keys_case : sort_view [("owner", YNum 1); ("name", YStr "v"); ("type", YStr "view"); ("a", YNum 2)] = Ok [("type", YStr "view"); ("name", YStr "v"); ("owner", YNum 1); ("a", YNum 2)].
Proof. reflexivity. Qed.
