(** C78: what the commands list, show, validate and debug print. *)
From Coq Require Import List String Ascii Bool Arith Lia.
From Verif Require Import PyBase PyStr Core_Model Access_Spec Access_Proofs Names_Model Names_Props Catalogue_Model Catalogue_Props Cli_Model.
From Verif Require Connections_Model Connections_Props.
Import ListNotations.
Local Open Scope string_scope.
Local Open Scope list_scope.

Lemma ok_eq {A} (a b : A) : Ok a = Ok b -> a = b.
Proof. now intros [= ->]. Qed.

Section Cli.
  Variable p : project.
  Variable models : list string.
  Variable conns : res (list conn).
  Variable model_dict : string -> dict.
  Variable view_dict : view_def -> dict.
  Variable view_table : view_def -> res (option string).
  Variable field_dict : field_obj -> res dict.
  Notation list_cmd := (list_cmd p models conns). Notation names_of := (names_of p).
  Notation show_cmd := (show_cmd p models conns model_dict view_dict view_table field_dict).
  Notation validate_cmd := (validate_cmd models).

  (** ** list *)
  (** the fields a type speaks of *)
  Definition speaks_of (ty : string) (f : field_obj) : Prop :=
    ty = "fields" \/ (ty = "metrics" /\ fd_kind (fo_def f) = Measure) \/ (ty = "dimensions" /\ fd_kind (fo_def f) <> Measure).
  (** the names of a type, for the current user *)
  Definition catalogue (ty : string) (view : option string) (hidden : bool) (names : list string) : Prop :=
    (ty = "models" /\ names = models) \/
    (ty = "connections" /\ exists cs, conns = Ok cs /\ names = map cn_name cs) \/
    (ty = "views" /\ (exists keep, names = map vd_name (List.filter keep (p_views p))) /\
       forall n, In n names <-> exists v, In v (p_views p) /\ vd_name v = n /\ permitted p (vd_grants v)) \/
    (In ty ["fields"; "metrics"; "dimensions"] /\
       (forall n, In n names -> exists f, visible_field p false f /\ speaks_of ty f /\ fo_name f = n /\ (hidden = true \/ fo_hidden f = false) /\ forall w, view = Some w -> fo_view f = w) /\
       (forall f, visible_field p false f -> speaks_of ty f -> (hidden = true \/ fo_hidden f = false) ->
          (view = None \/ exists w, view = Some w /\ fo_view f = w /\ forall v v', In v (p_views p) -> In v' (p_views p) -> vd_name v = w -> vd_name v' = w -> v = v') ->
          In (fo_name f) names)).
  Definition documented : list string := ["models"; "connections"; "views"; "fields"; "metrics"; "dimensions"].
  Definition singular (ty : string) : string :=
    match assoc ty [("models", "model"); ("connections", "connection"); ("views", "view"); ("fields", "field"); ("metrics", "metric"); ("dimensions", "dimension")] with Some s => s | None => "" end.

  Lemma names_of_ok sel view hidden names : names_of sel view hidden = Ok names -> exists l, fields p view hidden false = Ok l /\ names = map fo_name (List.filter sel l).
  Proof.
    unfold Cli_Model.names_of, list_of, fetch. cbn [cached fst snd]. destruct (fields p view hidden false) as [l|e]; cbn [fst bind]; [|discriminate]. intros [= <-]. eauto.
  Qed.
  Lemma names_catalogue ty sel view hidden names : In ty ["fields"; "metrics"; "dimensions"] -> (forall f, sel f = true <-> speaks_of ty f) -> names_of sel view hidden = Ok names -> catalogue ty view hidden names.
  Proof.
    intros I S N. apply names_of_ok in N. destruct N as (l & F & ->). right. right. right. split; [exact I|]. split.
    - intros n Hn. apply in_map_iff in Hn. destruct Hn as (f & <- & Hf). apply filter_In in Hf. destruct Hf as [Hf Hs]. destruct (fields_sound _ _ _ _ _ _ F Hf) as (V & W & H). exists f. split; [exact V|]. split; [now apply S|]. auto.
    - intros f V Sf H W. apply in_map. apply filter_In. split; [|now apply S]. destruct W as [->|(w & -> & Fw & U)].
      + apply (fields_all_In _ _ _ _ F). auto.
      + destruct (fields_view_In _ _ _ _ _ F) as (v & G & A). apply A. split; [|exact H]. destruct V as (v' & fd & Iv & If & P & SF). apply get_view_sound in G. destruct G as (Gv & Gn & _).
        assert (E : vd_name v' = w) by (rewrite <- Fw; destruct SF; reflexivity). rewrite (U v v' Gv Iv Gn E). eauto.
  Qed.
  (** C78: list prints how many there are and exactly the names, in order, or that there is none *)
  Theorem C78_list ty view hidden lines : In ty documented -> list_cmd ty view hidden = (lines, Ok tt) ->
    exists names, catalogue ty view hidden names /\
      (names = [] -> lines = ["Could not find any " ++ ty]%string) /\
      (names <> [] -> lines = ("Found " ++ nat_str (List.length names) ++ " " ++ (if Nat.eqb (List.length names) 1 then singular ty else ty) ++ ":" ++ nl)%string :: names).
  Proof.
    intros D. unfold Cli_Model.list_cmd.
    assert (C : exists r, items p models conns ty view hidden = Some r /\ (forall names, r = Ok names -> catalogue ty view hidden names) /\ singular ty = drop_last ty).
    { unfold documented in D. repeat (destruct D as [<-|D]; [|]); try contradiction D; (eexists; split; [reflexivity|]; split; [|reflexivity]).
      - intros names [= <-]. left. auto.
      - intros names H. apply bind_ok in H. destruct H as (cs & A & [= <-]). right. left. eauto.
      - intros names H. apply bind_ok in H. destruct H as (vs & A & [= <-]). right. right. left. split; [reflexivity|]. destruct (views_spec _ _ _ A) as [(keep & E) V]. split; [exists keep; now rewrite E|]. intros n. rewrite in_map_iff. split.
        + intros (v & N & I). apply V in I. exists v. tauto.
        + intros (v & I & N & P). exists v. split; [exact N|]. apply V. tauto.
      - intros names H. eapply names_catalogue; [cbn; tauto| |exact H]. intros f. unfold speaks_of. tauto.
      - intros names H. eapply names_catalogue; [cbn; tauto| |exact H]. intros f. unfold speaks_of, is_measure. destruct (fd_kind (fo_def f)); split; intros X; try reflexivity; try discriminate X; try tauto; decompose [or and] X; discriminate.
      - intros names H. eapply names_catalogue; [cbn; tauto| |exact H]. intros f. unfold speaks_of, is_dimension. destruct (fd_kind (fo_def f)); split; intros X; try reflexivity; try discriminate X; try (right; right; split; [reflexivity|discriminate]). decompose [or and] X; try discriminate. congruence. }
    destruct C as (r & -> & C & SG). destruct r as [[|x names]|e]; [| |discriminate].
    - intros [= <-]. exists []. split; [now apply C|]. split; [reflexivity|congruence].
    - intros [= <-]. exists (x :: names). split; [now apply C|]. split; [discriminate|]. intros _. f_equal. rewrite SG. destruct names; reflexivity.
  Qed.
  (** it fails only when the user may not look: a grant that does not exist, a view that is not there, connections that cannot be loaded *)
  Theorem C78_list_errors ty view hidden lines e : In ty documented -> list_cmd ty view hidden = (lines, Err e) ->
    lines = [] /\ ((ty = "connections" /\ conns = Err e) \/ (e = QueryError /\ In ty ["views"; "fields"; "metrics"; "dimensions"]) \/ (e = AccessDenied /\ In ty ["fields"; "metrics"; "dimensions"] /\ view <> None)).
  Proof.
    intros D. unfold Cli_Model.list_cmd. destruct (items p models conns ty view hidden) as [[[|x names]|e']|] eqn:I; try discriminate. intros [= <- <-]. split; [reflexivity|].
    assert (NE : forall sel, names_of sel view hidden = Err e' -> e' = QueryError \/ (e' = AccessDenied /\ view <> None)).
    { intros sel. unfold Cli_Model.names_of, list_of, fetch. cbn [cached fst snd]. destruct (fields p view hidden false) as [l|x] eqn:F; cbn [fst bind]; [discriminate|]. intros [= <-]. now apply fields_err_kind in F. }
    unfold documented in D. repeat (destruct D as [<-|D]; [|]); try contradiction D; cbn [items] in I; revert I; unfold items; cbn [String.eqb Ascii.eqb Bool.eqb]; intros [= I].
    - left. split; [reflexivity|]. destruct conns; [discriminate I|]. cbn [bind] in I. now injection I as ->.
    - right. left. apply bind_err in I. destruct I as [I|(x & _ & I)]; [|discriminate I]. apply views_err in I. cbn. tauto.
    - apply NE in I. cbn. tauto.
    - apply NE in I. cbn. tauto.
    - apply NE in I. cbn. tauto.
  Qed.

  (** ** show *)
  (** the lines of attributes, one after the other: a value on its line, a list below its name *)
  Inductive written : list (string * value) -> list string -> Prop :=
  | w_nil : written [] []
  | w_one k t r l : written r l -> written ((k, VOne t) :: r) (("  " ++ k ++ ": " ++ t)%string :: l)
  | w_none k r l : written r l -> written ((k, VItems []) :: r) (("  " ++ k ++ ": []")%string :: l)
  | w_items k xs r l : xs <> [] -> written r l -> written ((k, VItems xs) :: r) (("  " ++ k ++ ":")%string :: map (fun i => ("    " ++ i)%string) xs ++ l).
  Lemma written_lines d : written d (flat_map attribute_lines d).
  Proof.
    induction d as [|[k v] d IH]; cbn [flat_map attribute_lines]; [constructor|]. destruct v as [t|[|x xs]]; cbn [List.app map]; try (constructor; exact IH).
    exact (w_items k (x :: xs) d _ ltac:(discriminate) IH).
  Qed.
  (** the attributes printed are those of the keys in their order that have a value *)
  Lemma printable_spec keys d : NoDup keys -> let l := printable keys d in
    (forall k v, In (k, v) l <-> In k keys /\ assoc k d = Some (Some v)) /\ NoDup (map fst l) /\ exists keep, map fst l = List.filter keep keys.
  Proof.
    intros N. cbv zeta. assert (K : map fst (printable keys d) = List.filter (fun k => match assoc k d with Some (Some _) => true | _ => false end) keys).
    { clear N. induction keys as [|k keys IH]; [reflexivity|]. cbn [printable flat_map List.filter]. unfold printable in IH. rewrite map_app, IH. destruct (assoc k d) as [[v|]|]; reflexivity. }
    split; [|split; [rewrite K; now apply NoDup_filter|eexists; exact K]].
    intros k v. unfold printable. rewrite in_flat_map. split.
    - intros (x & I & H). destruct (assoc x d) as [[w|]|] eqn:E; try contradiction H. destruct H as [[= <- <-]|[]]. auto.
    - intros [I E]. exists k. split; [exact I|]. rewrite E. now left.
  Qed.
  (** what is printed for an object whose attributes are [a] *)
  Definition prints (ty n : string) (a : res (list (string * value))) (o : outcome) : Prop :=
    exists l, fst o = ("Attributes in " ++ ty ++ " " ++ n ++ ":" ++ nl)%string :: l /\
      match a with Ok d => written d l /\ snd o = Ok tt | Err e => l = [] /\ snd o = Err e end.
  (** the dictionary of an object of a type with a name *)
  Inductive object (view : option string) : string -> string -> res (list (string * value)) -> Prop :=
  | o_model n : In n models -> object view "model" n (Ok (printable model_keys (model_dict n)))
  | o_connection cs pre c post : conns = Ok cs -> cs = pre ++ c :: post -> (forall x, In x pre -> cn_name x <> cn_name c) -> object view "connection" (cn_name c) (cn_printable c)
  | o_view v n : get_view p n = Ok v -> vd_name v = n -> object view "view" n (view_attributes view_dict view_table v)
  | o_field f n : get_field p n view = Ok f -> object view "field" n (field_attributes field_dict f)
  | o_dimension f n : fst (get_dimension p view n []) = Ok f -> object view "dimension" n (field_attributes field_dict f)
  | o_metric f n : fst (get_metric p view n []) = Ok f -> object view "metric" n (field_attributes field_dict f).
  Definition types : list string := ["model"; "connection"; "view"; "field"; "dimension"; "metric"].
  Lemma prints_of ty n a : prints ty n a (match a with Err e => ([("Attributes in " ++ ty ++ " " ++ n ++ ":" ++ nl)%string], Err e) | Ok d => (("Attributes in " ++ ty ++ " " ++ n ++ ":" ++ nl)%string :: flat_map attribute_lines d, Ok tt) end).
  Proof. destruct a as [d|e]; eexists; (split; [reflexivity|]); cbn [snd]; [split; [apply written_lines|reflexivity]|split; reflexivity]. Qed.
  Lemma find_named {A} (name : A -> string) n (l : list A) x : List.find (fun c => String.eqb (name c) n) l = Some x -> name x = n /\ exists pre post, l = pre ++ x :: post /\ forall y, In y pre -> name y <> name x.
  Proof.
    induction l as [|c l IH]; [discriminate|]. cbn [List.find]. destruct (String.eqb (name c) n) eqn:E.
    - intros [= <-]. apply String.eqb_eq in E. split; [exact E|]. exists [], l. split; [reflexivity|]. intros y [].
    - intros F. destruct (IH F) as (N & pre & post & -> & Q). split; [exact N|]. exists (c :: pre), post. split; [reflexivity|]. intros y [<-|I]; [|auto]. apply String.eqb_neq in E. congruence.
  Qed.
  (** C78: show prints the attributes of the object of that type with that name *)
  Theorem C78_show ty n view : In ty types ->
    (exists a, object view ty n a /\ prints ty n a (show_cmd ty n view)) \/
    (exists e, show_cmd ty n view = ([], Err e)) \/
    (ty = "connection" /\ (exists cs, conns = Ok cs /\ ~ In n (map cn_name cs)) /\ show_cmd ty n view = ([], Ok tt)).
  Proof.
    intros T. unfold types in T. unfold Cli_Model.show_cmd, found.
    repeat (destruct T as [<-|T]; [|]); try contradiction T; cbn [String.eqb Ascii.eqb Bool.eqb].
    - unfold get_model. destruct (List.find _ models) as [m|] eqn:F; cbn [bind]; [|right; left; eauto]. left. destruct (find_named (fun x => x) n models m F) as (<- & pre & post & E & _). eexists. split; [apply o_model; rewrite E; apply in_elt|]. unfold model_attributes. apply (prints_of "model" m (Ok (printable model_keys (model_dict m)))).
    - unfold Cli_Model.get_connection. destruct conns as [cs|e] eqn:C; cbn [bind]; [|right; left; eauto]. destruct (List.find _ cs) as [c|] eqn:F; cbn [option_map].
      + left. destruct (find_named cn_name n cs c F) as (<- & pre & post & E & A). eexists. split; [eapply o_connection; [exact C|exact E|exact A]|]. apply prints_of.
      + right. right. split; [reflexivity|]. split; [|reflexivity]. exists cs. split; [reflexivity|]. rewrite in_map_iff. intros (x & N & I). pose proof (List.find_none _ _ F x I) as X. cbv beta in X. rewrite N, String.eqb_refl in X. discriminate.
    - destruct (get_view p n) as [v|e] eqn:G; cbn [bind]; [|right; left; eauto]. left. eexists. split; [apply o_view; [exact G|apply (get_view_sound _ _ _ G)]|]. apply prints_of.
    - destruct (get_field p n view) as [f|e] eqn:G; cbn [bind]; [|right; left; eauto]. left. eexists. split; [apply o_field; exact G|]. apply prints_of.
    - destruct (fst (get_dimension p view n [])) as [f|e] eqn:G; cbn [bind]; [|right; left; eauto]. left. eexists. split; [apply o_dimension; exact G|]. apply prints_of.
    - destruct (fst (get_metric p view n [])) as [f|e] eqn:G; cbn [bind]; [|right; left; eauto]. left. eexists. split; [apply o_metric; exact G|]. apply prints_of.
  Qed.
  (** which of its attributes: those of a fixed list of keys, in that order, that have a value; of a view also the table it reads and how many fields it has *)
  Theorem C78_attributes :
    (forall m k v, In (k, v) (printable model_keys (model_dict m)) <-> In k ["name"; "type"; "label"; "connection"] /\ assoc k (model_dict m) = Some (Some v)) /\
    (forall x d, view_attributes view_dict view_table x = Ok d -> exists t, view_table x = Ok t /\ forall k v, In (k, v) d <->
       In k ["name"; "type"; "label"; "sql_table_name"; "number_of_fields"] /\ (if String.eqb k "number_of_fields" then v = VOne (nat_str (List.length (vd_fields x))) else if String.eqb k "sql_table_name" then exists s, t = Some s /\ v = VOne s else assoc k (view_dict x) = Some (Some v))) /\
    (forall f d, field_attributes field_dict f = Ok d -> exists a, field_dict f = Ok a /\ forall k v, In (k, v) d <->
       In k ["name"; "field_type"; "type"; "label"; "group_label"; "hidden"; "primary_key"; "timeframes"; "datatype"; "sql"] /\ assoc k a = Some (Some v)).
  Proof.
    assert (ND : forall l, (if list_eq_dec string_dec (nodup string_dec l) l then true else false) = true -> NoDup l).
    { intros l. destruct (list_eq_dec string_dec (nodup string_dec l) l) as [E|]; [|discriminate]. intros _. rewrite <- E. apply NoDup_nodup. }
    split; [|split].
    - intros m. apply printable_spec. apply ND. reflexivity.
    - intros x d H. apply bind_ok in H. destruct H as (t & T & H). apply ok_eq in H. rewrite <- H. exists t. split; [exact T|]. intros k v. rewrite (proj1 (printable_spec view_keys _ ltac:(apply ND; reflexivity)) k v). cbn [assoc]. rewrite (String.eqb_sym "number_of_fields" k) || idtac. rewrite (String.eqb_sym "sql_table_name" k) || idtac.
      destruct (String.eqb k "number_of_fields"); [split; intros [A B]; (split; [exact A|congruence])|]. destruct (String.eqb k "sql_table_name"); [|reflexivity].
      destruct t as [s|]; cbn [option_map]; split; intros [A B]; (split; [exact A|]).
      + injection B as <-. eauto.
      + destruct B as (s' & [= <-] & ->). reflexivity.
      + discriminate B.
      + destruct B as (s' & [=] & _).
    - intros f d H. apply bind_ok in H. destruct H as (a & A & H). apply ok_eq in H. rewrite <- H. exists a. split; [exact A|]. apply printable_spec. apply ND. reflexivity.
  Qed.

  (** ** What is listed can be shown *)
  Definition headed (ty n : string) (o : outcome) : Prop := exists l, fst o = ("Attributes in " ++ ty ++ " " ++ n ++ ":" ++ nl)%string :: l.
  Lemma prints_headed ty n a o : prints ty n a o -> headed ty n o.
  Proof. intros (l & E & _). now exists l. Qed.
  Lemma show_headed ty n view a : In ty types -> found p models conns model_dict view_dict view_table field_dict ty n view = Some (Ok (Some a)) -> headed ty n (show_cmd ty n view).
  Proof. intros T F. unfold Cli_Model.show_cmd. rewrite F. destruct a as [d|e]; eexists; reflexivity. Qed.
  (** C78: every model, connection and view listed can be shown *)
  Theorem C78_listed_shown ty n names view hidden w : In ty ["models"; "connections"; "views"] -> catalogue ty view hidden names -> In n names ->
    (ty = "views" -> exists l, list_cmd ty view hidden = (l, Ok tt)) -> headed (singular ty) n (show_cmd (singular ty) n w).
  Proof.
    intros T C I L. destruct T as [<-|[<-|[<-|[]]]].
    - destruct C as [(_ & ->)|[(X & _)|[(X & _)|(X & _)]]]; try discriminate X; [|cbn in X; decompose [or] X; congruence || contradiction].
      change (singular "models") with "model". assert (F : exists m, List.find (fun m => String.eqb m n) models = Some m).
      { destruct (List.find _ models) eqn:F; [eauto|]. pose proof (List.find_none _ _ F n I) as X. cbv beta in X. rewrite String.eqb_refl in X. discriminate X. }
      destruct F as (m & F). eapply show_headed; [cbn; tauto|]. unfold found. cbn [String.eqb Ascii.eqb Bool.eqb]. unfold get_model. rewrite F. reflexivity.
    - destruct C as [(X & _)|[(_ & cs & C & ->)|[(X & _)|(X & _)]]]; try discriminate X; [|cbn in X; decompose [or] X; congruence || contradiction].
      change (singular "connections") with "connection". apply in_map_iff in I. destruct I as (c & <- & I). assert (F : exists x, List.find (fun x => String.eqb (cn_name x) (cn_name c)) cs = Some x).
      { destruct (List.find _ cs) eqn:F; [eauto|]. pose proof (List.find_none _ _ F c I) as X. cbv beta in X. rewrite String.eqb_refl in X. discriminate X. }
      destruct F as (x & F). eapply show_headed; [cbn; tauto|]. unfold found. cbn [String.eqb Ascii.eqb Bool.eqb]. unfold Cli_Model.get_connection. rewrite C. cbn [bind]. rewrite F. reflexivity.
    - destruct C as [(X & _)|[(X & _)|[(_ & _ & C)|(X & _)]]]; try discriminate X; [|cbn in X; decompose [or] X; congruence || contradiction].
      change (singular "views") with "view". apply C in I. destruct I as (v & I & N & P). destruct (L eq_refl) as (l & LC).
      assert (VS : exists vs, views p true = Ok vs).
      { unfold Cli_Model.list_cmd, items in LC. cbn [String.eqb Ascii.eqb Bool.eqb] in LC. destruct (views p true) as [vs|e]; [eauto|]. discriminate LC. }
      destruct VS as (vs & VS). destruct (views_spec _ _ _ VS) as [_ V]. assert (IV : In v vs) by (apply V; tauto).
      assert (F : exists x, List.find (fun x => String.eqb (vd_name x) n) vs = Some x).
      { destruct (List.find _ vs) eqn:F; [eauto|]. pose proof (List.find_none _ _ F v IV) as X. cbv beta in X. rewrite N, String.eqb_refl in X. discriminate X. }
      destruct F as (x & F). eapply show_headed; [cbn; tauto|]. unfold found. cbn [String.eqb Ascii.eqb Bool.eqb]. unfold get_view. rewrite VS. cbn [bind]. rewrite F. reflexivity.
  Qed.
  (** C78: a metric that is listed without asking for hidden ones can be shown, with the same view *)
  Theorem C78_metric_shown n names view : names_of is_measure view false = Ok names -> In n names -> has_char dot n = false ->
    exists f, visible_field p false f /\ fd_kind (fo_def f) = Measure /\ fo_name f = n /\ prints "metric" n (field_attributes field_dict f) (show_cmd "metric" n view).
  Proof.
    intros N I D. apply names_of_ok in N. destruct N as (l & F & ->). apply in_map_iff in I. destruct I as (f0 & E0 & I). apply filter_In in I. destruct I as [I M].
    pose proof (C69_metric_any_history p [] view n D) as X. cbn [after_all] in X. rewrite F in X.
    assert (Y : exists f, List.find (metric_named n) l = Some f).
    { destruct (List.find (metric_named n) l) eqn:G; [eauto|]. pose proof (List.find_none _ _ G f0 I) as Z. unfold metric_named in Z. unfold is_measure in M. destruct (fd_kind (fo_def f0)); try discriminate M. unfold fo_name in E0. rewrite E0, String.eqb_refl in Z. discriminate Z. }
    destruct Y as (f & Y). rewrite Y in X. destruct (find_some _ _ Y) as [J Q]. exists f. split; [apply (fields_sound _ _ _ _ _ _ F J)|]. unfold metric_named in Q. destruct (fd_kind (fo_def f)) eqn:K; try discriminate Q. apply String.eqb_eq in Q. split; [reflexivity|]. split; [exact Q|].
    unfold Cli_Model.show_cmd, found. cbn [String.eqb Ascii.eqb Bool.eqb]. rewrite X. cbn [bind]. apply prints_of.
  Qed.
  (** C78: so can a dimension, which is no group *)
  Theorem C78_dimension_shown n view l f : fields p view false false = Ok l -> In f l -> fd_kind (fo_def f) = Dimension -> fo_name f = n -> has_char dot n = false ->
    exists g, prints "dimension" n (field_attributes field_dict g) (show_cmd "dimension" n view) /\ exists f', In f' l /\ dimension_named n f' /\ fo_view g = fo_view f' /\ fo_def g = fo_def f'.
  Proof.
    intros F I K E D. assert (N : dimension_named n f).
    { apply sel_dimension; [exact D|]. unfold is_dimension, equal. rewrite K. rewrite field_name_parts_plain by exact D. cbn [fst andb]. rewrite E. now rewrite String.eqb_refl. }
    assert (S : exists l1 x l2, l = l1 ++ x :: l2 /\ dimension_named n x /\ forall g, In g l1 -> ~ dimension_named n g).
    { clear F E K. induction l as [|a l IH]; [contradiction I|]. destruct (is_dimension a && fst (equal a n)) eqn:A.
      - exists [], a, l. split; [reflexivity|]. split; [now apply sel_dimension|]. intros g [].
      - assert (NA : ~ dimension_named n a) by (intros X; apply sel_dimension in X; [congruence|exact D]). destruct I as [<-|I]; [contradiction (NA N)|]. destruct (IH I) as (l1 & x & l2 & -> & X & Y). exists (a :: l1), x, l2. split; [reflexivity|]. split; [exact X|]. intros g [<-|G]; auto. }
    destruct S as (l1 & x & l2 & -> & X & Y). destruct (C69_dimension_first p view n l1 x l2 D F X Y) as (g & G & A & B). exists g. split.
    - unfold Cli_Model.show_cmd, found. cbn [String.eqb Ascii.eqb Bool.eqb]. rewrite G. cbn [bind]. apply prints_of.
    - exists x. split; [apply in_elt|]. auto.
  Qed.
  (** C78: a group is listed by a name that cannot be shown: the names of its timeframes can *)
  Theorem C78_group_shown_refuted view l f hidden names : fields p view false false = Ok l -> In f l -> fd_kind (fo_def f) = DimGroup -> has_char dot (fo_name f) = false ->
    (forall g, In g l -> ~ dimension_named (fo_name f) g) -> names_of is_dimension view hidden = Ok names ->
    In (fo_name f) names /\ show_cmd "dimension" (fo_name f) view = ([], Err StopIteration).
  Proof.
    intros F I K D N L. apply names_of_ok in L. destruct L as (l' & F' & ->). split.
    - apply in_map. apply filter_In. split; [|unfold is_dimension; now rewrite K].
      destruct view as [w|].
      + destruct (fields_view_In _ _ _ _ _ F) as (v & G & A). destruct (fields_view_In _ _ _ _ _ F') as (v' & G' & A'). rewrite G in G'. injection G' as <-. apply A in I. apply A'. split; [apply I|]. destruct I as [_ [X|X]]; [discriminate X|now right].
      + apply (fields_all_In _ _ _ _ F) in I. apply (fields_all_In _ _ _ _ F'). split; [apply I|]. destruct I as [_ [X|X]]; [discriminate X|now right].
    - unfold Cli_Model.show_cmd, found. cbn [String.eqb Ascii.eqb Bool.eqb]. unfold get_dimension, get_of, fetch. cbn [cached fst snd]. rewrite F. rewrite next_none; [reflexivity|]. intros g J. apply not_named; auto.
  Qed.
  (** a hidden metric is listed on demand and cannot be shown as a metric *)
  Theorem C78_hidden_shown_refuted view l n names : fields p view false false = Ok l -> (forall g, In g l -> ~ (fd_kind (fo_def g) = Measure /\ fo_name g = n)) -> has_char dot n = false ->
    names_of is_measure view true = Ok names -> In n names -> show_cmd "metric" n view = ([], Err StopIteration).
  Proof.
    intros F N D _ _. pose proof (C69_metric_any_history p [] view n D) as X. cbn [after_all] in X. rewrite F in X.
    assert (Y : List.find (metric_named n) l = None).
    { apply find_None. intros g I. unfold metric_named. destruct (fd_kind (fo_def g)) eqn:K; try reflexivity. apply String.eqb_neq. intros E. apply (N g I). auto. }
    rewrite Y in X. unfold Cli_Model.show_cmd, found. cbn [String.eqb Ascii.eqb Bool.eqb]. rewrite X. reflexivity.
  Qed.

  (** ** What is not there *)
  (** C78: a type that does not exist, a connection that is not there: nothing is found, and the exit status says that all went well *)
  Theorem C78_status_refuted ty n view hidden :
    (~ In ty documented -> ty <> "profiles" -> exit_status (list_cmd ty view hidden) = 0 /\ fst (list_cmd ty view hidden) = [no_type ty]) /\
    (~ In ty types -> exit_status (show_cmd ty n view) = 0 /\ fst (show_cmd ty n view) = [no_type ty]) /\
    (forall cs, conns = Ok cs -> ~ In n (map cn_name cs) -> show_cmd "connection" n view = ([], Ok tt)) /\
    (forall x r, exit_status (validate_cmd (Ok (x :: r))) = 0).
  Proof.
    split; [|split; [|split]].
    - intros D P. assert (X : items p models conns ty view hidden = None).
      { unfold items. unfold documented in D. repeat match goal with |- context [String.eqb ty ?s] => destruct (String.eqb_spec ty s) as [->|_]; [exfalso; (apply P; reflexivity) || (apply D; cbn; tauto)|] end. reflexivity. }
      unfold Cli_Model.list_cmd. rewrite X. split; reflexivity.
    - intros D. assert (X : found p models conns model_dict view_dict view_table field_dict ty n view = None).
      { unfold found. unfold types in D. repeat match goal with |- context [String.eqb ty ?s] => destruct (String.eqb_spec ty s) as [->|_]; [exfalso; apply D; cbn; tauto|] end. reflexivity. }
      unfold Cli_Model.show_cmd. rewrite X. split; reflexivity.
    - intros cs C N. destruct (C78_show "connection" n view ltac:(cbn; tauto)) as [(a & O & P)|[(e & H)|(_ & _ & H)]]; [|exfalso|exact H].
      + exfalso. inversion O as [|cs' pre c post C' E A EN| | | |]; subst. rewrite C in C'. injection C' as ->. apply N. apply in_map. apply in_elt.
      + unfold Cli_Model.show_cmd, found in H. cbn [String.eqb Ascii.eqb Bool.eqb] in H. unfold Cli_Model.get_connection in H. rewrite C in H. cbn [bind] in H. destruct (List.find _ cs) as [c|]; [|discriminate H]. cbn [option_map] in H. destruct (cn_printable c); discriminate H.
    - reflexivity.
  Qed.
  (** a type that the command knows and never lists *)
  Theorem C78_profiles_refuted view hidden : list_cmd "profiles" view hidden = ([], Err NotImplemented).
  Proof. reflexivity. Qed.

  (** ** validate *)
  (** C78: validate says that the project passed exactly when there is no error, and otherwise prints every message, in order *)
  Definition counted (n : nat) (what : string) : string := (nat_str n ++ " " ++ (if Nat.leb 2 n then what ++ "s" else what))%string.
  Theorem C78_validate errors : 
    (errors = [] -> validate_cmd (Ok errors) = ([("Project passed (checked " ++ counted (List.length models) "model" ++ ")!")%string], Ok tt)) /\
    (errors <> [] -> validate_cmd (Ok errors) = (("Found " ++ counted (List.length errors) "error" ++ " in the project:" ++ nl)%string :: map (fun m => (nl ++ m ++ nl)%string) errors, Ok tt)) /\
    (forall l e, validate_cmd (Err e) = l -> l = ([], Err e)).
  Proof.
    assert (P : forall n w t, (nat_str n ++ " " ++ w ++ (if Nat.ltb 1 n then "s" else "") ++ t = counted n w ++ t)%string).
    { intros n w t. unfold counted, Nat.ltb. assert (Q : forall x y z : string, ((x ++ y) ++ z = x ++ y ++ z)%string) by (intros x y z; induction x as [|h x IH]; cbn; [reflexivity|now rewrite IH]). destruct (Nat.leb 2 n); now rewrite !Q. }
    split; [intros ->; unfold validate_cmd; now rewrite <- P|]. split; [|now intros l e <-]. destruct errors as [|x r]; [congruence|]. intros _. unfold validate_cmd. now rewrite <- P.
  Qed.

  (** ** debug *)
  Variable answer : string -> conn -> option string.
  Notation debug_cmd := (debug_cmd conns answer).
  Definition runs (l : list event) : list (string * conn) := flat_map (fun x => match x with Ran q c => [(q, c)] | Said _ => [] end) l.
  Definition reported (c : conn) : string :=
    (nl ++ "Connection " ++ cn_name c ++ " test: " ++ match answer "select 1 as id;" c with None => "OK connection ok" | Some e => "Failed with:" ++ nl ++ nl ++ " " ++ e end)%string.
  Lemma runs_app a b : runs (a ++ b) = runs a ++ runs b. Proof. apply flat_map_app. Qed.
  Lemma runs_said l : runs (map Said l) = []. Proof. induction l; [reflexivity|exact IHl]. Qed.
  Lemma say_runs cs : runs (fst (say_attributes cs)) = [].
  Proof.
    induction cs as [|c cs IH]; [reflexivity|]. cbn [say_attributes]. destruct (cn_printable c) as [d|e]; [|reflexivity]. destruct (say_attributes cs) as [l o]. cbn [fst] in *. rewrite runs_app, IH, app_nil_r. clear. induction d; [reflexivity|exact IHd].
  Qed.
  Lemma say_ok cs : (forall c, In c cs -> exists d, cn_printable c = Ok d) -> snd (say_attributes cs) = Ok tt.
  Proof.
    induction cs as [|c cs IH]; intros H; [reflexivity|]. cbn [say_attributes]. destruct (H c (or_introl eq_refl)) as (d & ->). specialize (IH (fun x I => H x (or_intror I))). destruct (say_attributes cs) as [l o]. exact IH.
  Qed.
  Lemma say_err cs : snd (say_attributes cs) = Ok tt -> forall c, In c cs -> exists d, cn_printable c = Ok d.
  Proof.
    induction cs as [|c cs IH]; [intros _ x []|]. cbn [say_attributes]. destruct (cn_printable c) as [d|e] eqn:E; [|discriminate]. destruct (say_attributes cs) as [l o] eqn:S. cbn [snd] in *. intros -> x [<-|I]; eauto.
  Qed.
  (** an attribute of a connection on its line *)
  Definition said_as (kv : string * value) (x : event) : Prop :=
    match snd kv with VOne t => x = Said ("  " ++ fst kv ++ ": " ++ t)%string | VItems l => x = Said ("  " ++ fst kv ++ ": [" ++ String.concat ", " l ++ "]")%string end.
  Lemma say_lines cs l : say_attributes cs = (l, Ok tt) -> exists attrs, l = List.concat attrs /\ Forall2 (fun c x => exists d, cn_printable c = Ok d /\ Forall2 said_as d x) cs attrs.
  Proof.
    revert l. induction cs as [|c cs IH]; intros l; cbn [say_attributes]; [intros [= <-]; exists []; split; [reflexivity|constructor]|].
    destruct (cn_printable c) as [d|e] eqn:E; [|discriminate]. destruct (say_attributes cs) as [r o]. intros [= <- ->]. destruct (IH _ eq_refl) as (attrs & -> & F).
    eexists (_ :: attrs). split; [reflexivity|]. constructor; [|exact F]. exists d. split; [exact E|]. clear. induction d as [|[k v] d IH]; cbn [map]; constructor; [|exact IH]. unfold said_as. destruct v; reflexivity.
  Qed.
  (** C78: every connection is tried once, in order, whatever the others answer, and each gets its own report, when the attributes of all can be printed *)
  Theorem C78_debug env profiles git cs : conns = Ok cs -> (forall c, In c cs -> exists d, cn_printable c = Ok d) ->
    snd (debug_cmd env profiles git) = Ok tt /\ runs (fst (debug_cmd env profiles git)) = map (fun c => ("select 1 as id;", c)) cs /\
    exists before attrs, runs before = [] /\ Forall2 (fun c l => exists d, cn_printable c = Ok d /\ Forall2 said_as d l) cs attrs /\
      fst (debug_cmd env profiles git) = before ++ List.concat attrs ++ flat_map (fun c => [Ran "select 1 as id;" c; Said (reported c)]) cs.
  Proof.
    intros C P. unfold Cli_Model.debug_cmd. rewrite C. pose proof (say_ok cs P) as O. pose proof (say_runs cs) as R. pose proof (say_lines cs) as L. destruct (say_attributes cs) as [l o]. cbn [snd fst] in O, R. subst o. cbn [fst snd]. split; [reflexivity|].
    assert (T : runs (flat_map (test answer) cs) = map (fun c => ("select 1 as id;", c)) cs).
    { clear. induction cs as [|c cs IH]; [reflexivity|]. cbn [flat_map]. rewrite runs_app, IH. reflexivity. }
    split.
    - rewrite runs_app, runs_said. cbn [List.app]. change (runs (?a :: ?b)) with (runs ([a] ++ b)). rewrite runs_app. cbn [runs flat_map List.app]. fold (runs (l ++ flat_map (test answer) cs)). rewrite runs_app, R, T. reflexivity.
    - destruct (L _ eq_refl) as (attrs & -> & F). eexists (_ ++ [_]), attrs. split; [|split; [exact F|rewrite <- app_assoc; cbn [List.app]; reflexivity]]. now rewrite runs_app, runs_said.
  Qed.
  (** one connection whose attributes cannot be printed, and no connection is tried *)
  Theorem C78_debug_refuted env profiles git cs c e : conns = Ok cs -> In c cs -> cn_printable c = Err e ->
    (exists e', snd (debug_cmd env profiles git) = Err e') /\ runs (fst (debug_cmd env profiles git)) = [].
  Proof.
    intros C I E. unfold Cli_Model.debug_cmd. rewrite C. pose proof (say_err cs) as O. pose proof (say_runs cs) as R. destruct (say_attributes cs) as [l o]. cbn [fst snd] in *. destruct o as [[]|e'].
    - destruct (O eq_refl c I) as (d & X). congruence.
    - cbn [fst snd]. split; [eauto|]. rewrite runs_app, runs_said. cbn [List.app]. unfold runs at 1. cbn [flat_map List.app]. exact R.
  Qed.
End Cli.

(** a Trino connection beside others: none of them is tried, for the attributes of a Trino connection cannot be printed (C59) *)
Theorem C78_trino_refuted json_loads open_json isabs kw o str name before after answer env profiles git :
  Connections_Model.construct json_loads open_json isabs Connections_Model.Trino kw = Ok o ->
  runs (fst (debug_cmd (Ok (before ++ conn_of str name o :: after)) answer env profiles git)) = [] /\ exists e, snd (debug_cmd (Ok (before ++ conn_of str name o :: after)) answer env profiles git) = Err e.
Proof.
  intros C. apply Connections_Props.C59_trino_refuted in C.
  destruct (C78_debug_refuted (Ok (before ++ conn_of str name o :: after)) answer env profiles git _ (conn_of str name o) KeyError eq_refl) as [A B]; [apply in_elt|unfold conn_of; cbn [cn_printable]; now rewrite C|]. auto.
Qed.
(** the connections of C59 that can always be printed are all tried *)
Theorem C78_printable_tried json_loads open_json isabs str answer env profiles git cs :
  (forall c, In c cs -> exists k kw o, In k [Connections_Model.Snowflake; Connections_Model.Databricks; Connections_Model.Redshift; Connections_Model.Postgres; Connections_Model.DuckDB; Connections_Model.BigQuery] /\
     Connections_Model.construct json_loads open_json isabs k kw = Ok o /\ c = conn_of str (cn_name c) o) ->
  snd (debug_cmd (Ok cs) answer env profiles git) = Ok tt /\ runs (fst (debug_cmd (Ok cs) answer env profiles git)) = map (fun c => ("select 1 as id;", c)) cs.
Proof.
  intros H. destruct (C78_debug (Ok cs) answer env profiles git cs eq_refl) as (A & B & _); [|auto].
  intros c I. destruct (H c I) as (k & kw & o & K & C & ->). destruct (Connections_Props.C59_prints_partial _ _ _ k kw o K C) as (d & D). unfold conn_of. cbn [cn_printable]. rewrite D. cbn [bind]. eauto.
Qed.

(** ** Cases *)
Definition no_dict : string -> dict := fun _ => [].
Definition shop_dict (f : field_obj) : res dict := Ok [("name", Some (VOne (fo_name f))); ("label", None); ("timeframes", match fd_timeframes (fo_def f) with [] => None | l => Some (VItems l) end)].
Definition warehouse (n : string) : conn := Conn n (Ok [("name", VOne n)]).
Notation shop_list := (list_cmd shop ["sales"] (Ok [warehouse "sf"; warehouse "pg"])).
Notation shop_show := (show_cmd shop ["sales"] (Ok [warehouse "sf"; warehouse "pg"]) no_dict (fun _ => []) (fun v => Ok (Some (vd_name v))) shop_dict).
Example C78_list_case : shop_list "metrics" (Some "orders") false = (["Found 1 metric:" ++ nl; "revenue"]%string, Ok tt) /\ shop_list "views" None false = (["Found 2 views:" ++ nl; "orders"; "refunds"]%string, Ok tt)
  /\ shop_list "dimensions" (Some "refunds") true = (["Could not find any dimensions"], Ok tt) /\ shop_list "fields" (Some "gone") true = ([], Err AccessDenied).
Proof. vm_compute. repeat split. Qed.
Example C78_show_case : shop_show "metric" "revenue" None = (["Attributes in metric revenue:" ++ nl; "  name: revenue"]%string, Ok tt)
  /\ shop_show "dimension" "order_month" None = (["Attributes in dimension order_month:" ++ nl; "  name: order"; "  timeframes:"; "    date"; "    month"]%string, Ok tt)
  /\ shop_show "view" "orders" None = (["Attributes in view orders:" ++ nl; "  sql_table_name: orders"; "  number_of_fields: 4"]%string, Ok tt)
  /\ shop_show "dimension" "order" None = ([], Err StopIteration) /\ shop_show "field" "revenue" None = ([], Err QueryError).
Proof. vm_compute. repeat split. Qed.
(** a name listed that two views have cannot be shown as a field *)
Theorem C78_same_name_refuted : exists p n l, fst (list_cmd p [] (Ok []) "fields" None false) = l /\ In n l /\ show_cmd p [] (Ok []) no_dict (fun _ => []) (fun v => Ok None) shop_dict "field" n None = ([], Err QueryError).
Proof. exists shop, "revenue". eexists. split; [reflexivity|]. split; [vm_compute; tauto|vm_compute; reflexivity]. Qed.
Example C78_group_case : names_of shop is_dimension None false = Ok ["order"; "region"] /\ exists l f, fields shop None false false = Ok l /\ In f l /\ fd_kind (fo_def f) = DimGroup /\ fo_name f = "order" /\ forall g, In g l -> ~ dimension_named (fo_name f) g.
Proof.
  split; [vm_compute; reflexivity|]. do 2 eexists. split; [vm_compute; reflexivity|]. split; [right; left; reflexivity|]. split; [reflexivity|]. split; [reflexivity|].
  intros g I N. apply sel_dimension in N; [|reflexivity]. cbn in I. repeat (destruct I as [<-|I]; [vm_compute in N; discriminate N|]). contradiction I.
Qed.
Example C78_hidden_case : names_of shop is_measure None true = Ok ["revenue"; "cost"; "revenue"] /\ shop_show "metric" "cost" None = ([], Err StopIteration).
Proof. split; vm_compute; reflexivity. Qed.
Example C78_debug_case : runs (fst (debug_cmd (Ok [warehouse "sf"; warehouse "pg"]) (fun _ c => if String.eqb (cn_name c) "sf" then Some "no route" else None) [] None true)) = [("select 1 as id;", warehouse "sf"); ("select 1 as id;", warehouse "pg")].
Proof. reflexivity. Qed.

Print Assumptions C78_list.
Print Assumptions C78_list_errors.
Print Assumptions C78_show.
Print Assumptions C78_attributes.
Print Assumptions C78_listed_shown.
Print Assumptions C78_metric_shown.
Print Assumptions C78_dimension_shown.
Print Assumptions C78_group_shown_refuted.
Print Assumptions C78_hidden_shown_refuted.
Print Assumptions C78_status_refuted.
Print Assumptions C78_profiles_refuted.
Print Assumptions C78_validate.
Print Assumptions C78_debug.
Print Assumptions C78_debug_refuted.
Print Assumptions C78_trino_refuted.
Print Assumptions C78_printable_tried.
Print Assumptions C78_same_name_refuted.
