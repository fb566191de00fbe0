(** When the definition of a view breaks a rule: specification of the checks of a view, stated on the
    definition and on what the project answers. *)
From Coq Require Import List String ZArith Bool.
From Verif Require Import PyBase PyStr PyRefs PyReplace Names_Model Names_Props FieldCheck_Model FieldCheck_Spec ViewCheck_Model.
Import ListNotations.
Local Open Scope string_scope.
Local Open Scope list_scope.

Definition relationships := ["many_to_one"; "one_to_one"; "one_to_many"; "many_to_many"].
Definition join_types := ["left_outer"; "inner"; "full_outer"; "cross"].
Definition known_view_keys := ["version"; "type"; "name"; "model_name"; "label"; "description"; "hidden"; "sql_table_name"; "derived_table"; "default_date"; "row_label";
  "sets"; "always_filter"; "access_filters"; "required_access_grants"; "event_dimension"; "event_name"; "extra"; "identifiers"; "fields"; "fields_for_analysis";
  "model"; "field_prefix"; "_file_path"].
Definition known_id_keys (type : string) : list string :=
  ["name"; "type"; "join_as"; "join_as_label"; "join_as_field_prefix"; "include_metrics"]
  ++ (if String.eqb type "join" then ["sql_on"; "reference"; "join_type"; "relationship"] else ["sql"; "allowed_fanouts"; "identifiers"]).
Definition proper_name (n : string) : Prop := n <> "" /\ all_chars allowed n = true.

Section Spec.
  Variable E : venv.
  Variable n : string.                              (* the name of the view *)
  Variable fs : list vfield.                        (* its fields *)
  Definition in_view (s : string) : string := if contains "." s then s else (n ++ "." ++ s)%string.
  Definition unknown (q : string) : Prop := ve_get_field E q = Err AccessDenied.

  Definition plain_breaks (d : ydict) (r : vrule) : Prop :=
    match r with
    | VName => ~ proper_name n
    | VLabel => value d "label" (fun v => ~ Str v)
    | VDescription => value d "description" (fun v => ~ Str v)
    | VDescriptionLong => exists s, is_text d "description" s /\ 1024 < String.length s
    | VHidden => value d "hidden" (fun v => ~ Bool_ v)
    | VRowLabel => value d "row_label" (fun v => ~ Str v)
    | VExtra => value d "extra" (fun v => ~ Dict v)
    | VEventName => value d "event_name" (fun v => ~ Str v)
    | VForAnalysis => value d "fields_for_analysis" (fun v => ~ List_ v)
    | VProperty k => In k (map fst d) /\ ~ In k known_view_keys
    | _ => False
    end.
  (** The table the view reads *)
  Definition table_breaks (d : ydict) (r : vrule) : Prop :=
    match r with
    | VTwoTables => ~ lacks d "sql_table_name" /\ ~ lacks d "derived_table"
    | VNoTable => lacks d "sql_table_name" /\ lacks d "derived_table"
    | VTable => value d "sql_table_name" (fun v => ~ Str v)
    | VDerived => value d "derived_table" (fun v => ~ Dict v)
    | VNoDerivedSql => exists m, assoc "derived_table" d = Some (YDict m) /\ lacks m "sql"
    | VDerivedSql => exists m, assoc "derived_table" d = Some (YDict m) /\ value m "sql" (fun v => ~ Str v)
    | _ => False
    end.
  (** The default date: a time dimension group of the view or of a view that can be joined to it *)
  Definition date_breaks (d : ydict) (r : vrule) : Prop :=
    let named c := exists s, is_text d "default_date" s /\ s <> "" /\ c = in_view s in
    match r with
    | VDateType => value d "default_date" (fun v => ~ Str v)
    | VDateKind => exists c i, named c /\ ve_by_name E c = Ok i /\ ~ (fi_ftype i = "dimension_group" /\ fi_type i = "time")
    | VDateFar => exists c i l, named c /\ ve_by_name E c = Ok i /\ ve_joinable E n = Ok l /\ fi_view i <> n /\ ~ In (fi_view i) l
    | VDateMissing => exists c, named c /\ (ve_by_name E c = Err AccessDenied \/ ve_by_name E c = Err QueryError
                                            \/ (exists i, ve_by_name E c = Ok i) /\ (ve_joinable E n = Err AccessDenied \/ ve_joinable E n = Err QueryError))
    | _ => False
    end.
  (** Sets *)
  Definition complete (s : ydict) : Prop := ~ lacks s "name" /\ ~ lacks s "fields".
  Definition one_set_breaks (s : ydict) (name : string) (r : setrule) : Prop :=
    match r with
    | SName => ~ proper_name name
    | SView => proper_name n /\ exists e, ve_views E n = Err e
    | SFieldsType => value s "fields" (fun v => ~ List_ v)
    | SField f => value s "fields" List_ /\ (exists l, ve_set_names E n s = Ok l /\ In f l) /\ exists e, ve_get_field E f = Err e
    | SKey k => In k (map fst s) /\ k <> "name" /\ k <> "fields" /\ k <> "view_name"
    end.
  Definition sets_break (d : ydict) (r : vrule) : Prop :=
    match r with
    | VSets => value d "sets" (fun v => ~ List_ v)
    | VSetItem v => element d "sets" v /\ ~ Dict v
    | VSetKeys => exists s, element d "sets" (YDict s) /\ ~ complete s
    | VSet name r => exists s, element d "sets" (YDict s) /\ complete s /\ is_text s "name" name /\ one_set_breaks s name r
    | _ => False
    end.
  (** Filters that are always applied; access filters; access grants *)
  Definition always_breaks (d : ydict) (r : vrule) : Prop :=
    match r with
    | VAlways => value d "always_filter" (fun v => ~ List_ v)
    | VAlwaysItem v => element d "always_filter" v /\ ~ Dict v
    | VAlwaysNoField => exists f, element d "always_filter" (YDict f) /\ lacks f "field"
    | VAlwaysField q => exists f s, element d "always_filter" (YDict f) /\ is_text f "field" s /\ q = in_view s /\ unknown q
    | VAlwaysNoValue => exists f, element d "always_filter" (YDict f) /\ lacks f "value"
    | VAlwaysValue v => exists f, element d "always_filter" (YDict f) /\ assoc "value" f = Some v /\ ~ Str v /\
                          (lacks f "field" \/ exists s, is_text f "field" s /\ ve_readable E (set_key "field" (YStr (in_view s)) f) = false)
    | _ => False
    end.
  Definition access_breaks (d : ydict) (r : vrule) : Prop :=
    match r with
    | VAccess => value d "access_filters" (fun v => ~ List_ v)
    | VAccessItem v => element d "access_filters" v /\ ~ Dict v
    | VAccessNoField => exists f, element d "access_filters" (YDict f) /\ lacks f "field"
    | VAccessField q => exists f, element d "access_filters" (YDict f) /\ is_text f "field" q /\ unknown q
    | VAccessNoAttr => exists f, element d "access_filters" (YDict f) /\ lacks f "user_attribute"
    | VAccessAttr v => exists f, element d "access_filters" (YDict f) /\ assoc "user_attribute" f = Some v /\ ~ Str v
    | VGrants => value d "required_access_grants" (fun v => ~ List_ v)
    | VGrantType v => element d "required_access_grants" v /\ ~ Str v
    | VGrant g => element d "required_access_grants" (YStr g) /\ ~ In g (ve_grants E)
    | _ => False
    end.
  (** The event dimension; [full_names]: what is looked up for a name that has a view *)
  Definition event_breaks (d : ydict) (r : vrule) : Prop :=
    match r with
    | VEventType => value d "event_dimension" (fun v => ~ Str v)
    | VEvent => exists s, is_text d "event_dimension" s /\
                  (contains "." s = false /\ unknown (n ++ "." ++ s)%string
                   \/ contains "." s = true /\ (exists t, is_text d "default_date" t /\ t <> "" /\ unknown t)
                   \/ contains "." s = true /\ value d "default_date" (fun v => ~ Str v /\ ve_str E v <> "" /\ unknown (ve_str E v)))
    | _ => False
    end.

  (** Identifiers: the shape every identifier must have, and what it is reported for *)
  Definition part_shape (v : yv) (f : idfault) : Prop :=
    match f with
    | FPart w => w = v /\ ~ Dict v
    | FPartName m => v = YDict m /\ lacks m "name"
    | _ => False
    end.
  Definition good_part (v : yv) : Prop := exists m, v = YDict m /\ ~ lacks m "name".
  Definition parts_shape (i : ydict) (f : idfault) : Prop :=
    match f with
    | FPartsNotList => value i "identifiers" (fun v => ~ List_ v)
    | FPart _ | FPartName _ => exists l p l', assoc "identifiers" i = Some (YList (l ++ p :: l')) /\ Forall good_part l /\ part_shape p f
    | _ => False
    end.
  Definition good_parts (i : ydict) : Prop := lacks i "identifiers" \/ exists l, assoc "identifiers" i = Some (YList l) /\ Forall good_part l.
  Definition shape (v : yv) (f : idfault) : Prop :=
    f = FNotDict v /\ ~ Dict v
    \/ exists i, v = YDict i /\
       match f with
       | FNoName => lacks i "name"
       | FNoType => ~ lacks i "name" /\ lacks i "type"
       | FPartsNotList | FPart _ | FPartName _ => ~ lacks i "name" /\ ~ lacks i "type" /\ parts_shape i f
       | FNoRelationship => ~ lacks i "name" /\ good_parts i /\ is_text i "type" "join" /\ lacks i "relationship"
       | FRelationship => ~ lacks i "name" /\ good_parts i /\ is_text i "type" "join" /\ value i "relationship" (fun v => ~ OneOf relationships v)
       | FNoSqlOn => ~ lacks i "name" /\ good_parts i /\ is_text i "type" "join" /\ value i "relationship" (OneOf relationships) /\ lacks i "sql_on"
       | FNoReference => ~ lacks i "name" /\ good_parts i /\ is_text i "type" "join" /\ value i "relationship" (OneOf relationships) /\ ~ lacks i "sql_on" /\ lacks i "reference"
       | _ => False
       end.
  Definition well_shaped (v : yv) : Prop :=
    exists i, v = YDict i /\ ~ lacks i "name" /\ ~ lacks i "type" /\ good_parts i /\
      (is_text i "type" "join" -> value i "relationship" (OneOf relationships) /\ ~ lacks i "sql_on" /\ ~ lacks i "reference").
  Definition custom_breaks (i : ydict) (r : idrule) : Prop :=
    match r with
    | IReferenceType => value i "reference" (fun v => ~ Str v)
    | IReference => exists v, is_text i "reference" v /\ ve_views E v = Err AccessDenied
    | IJoinType => value i "join_type" (fun v => ~ OneOf join_types v)
    | ISqlOn => value i "sql_on" (fun v => ~ Str v)
    | _ => False
    end.
  Definition key_breaks (name type : string) (i : ydict) (r : idrule) : Prop :=
    match r with
    | ISql => value i "sql" (fun v => ~ Str v)
    | ISqlPlain => exists s, is_text i "sql" s /\ contains "${" s = false
    | ISqlRef q => exists s, is_text i "sql" s /\ contains "${" s = true /\ In q (fields_to_replace s) /\ q <> "TABLE" /\
                     let '(_, v, c) := field_name_parts q in unknown ((match v with Some v => v | None => n end) ++ "." ++ c)%string
    | INoField => lacks i "sql" /\ lacks i "identifiers" /\ unknown (n ++ "." ++ name)%string
    | IPartsType => lacks i "sql" /\ ~ lacks i "identifiers" /\ type <> "primary"
    | _ => False
    end.
  Definition id_breaks (i : ydict) (r : idrule) : Prop :=
    match r with
    | INameType => value i "name" (fun v => ~ Str v)
    | IName => exists m, is_text i "name" m /\ ~ proper_name m
    | IType => value i "name" Str /\ value i "type" (fun v => ~ Str v)
    | ITypeOption => value i "name" Str /\ value i "type" (fun v => Str v /\ ~ OneOf ["primary"; "foreign"; "join"] v)
    | _ =>
        exists m t, is_text i "name" m /\ is_text i "type" t /\ In t ["primary"; "foreign"; "join"] /\
        match r with
        | IJoinAs => value i "join_as" (fun v => ~ Str v)
        | IJoinAsLabel => ~ lacks i "join_as" /\ value i "join_as_label" (fun v => ~ Str v)
        | IJoinAsPrefix => ~ lacks i "join_as" /\ value i "join_as_field_prefix" (fun v => ~ Str v)
        | IMetrics => ~ lacks i "join_as" /\ value i "include_metrics" (fun v => ~ Bool_ v)
        | IKey k => In k (map fst i) /\ ~ In k (known_id_keys t)
        | _ => t = "join" /\ custom_breaks i r \/ t <> "join" /\ key_breaks m t i r
        end
    end.
  (** Equality of names as Python has it: true is 1 and false is 0 *)
  Definition as_number (v : yv) : option Z := match v with YInt z => Some z | YBool true => Some 1%Z | YBool false => Some 0%Z | _ => None end.
  Definition eq_name (a b : yv) : Prop :=
    a = YNull /\ b = YNull \/ (exists s, a = YStr s /\ b = YStr s) \/ exists z, as_number a = Some z /\ as_number b = Some z.
  Definition named (v m : yv) : Prop := exists i, v = YDict i /\ assoc "name" i = Some m.
  Definition ids_break (d : ydict) (r : vrule) : Prop :=
    match r with
    | VIdFault FNotList => value d "identifiers" (fun v => ~ List_ v)
    | VIdFault f => exists l v l', assoc "identifiers" d = Some (YList (l ++ v :: l')) /\ Forall well_shaped l /\ shape v f
    | VId m r => exists l i, assoc "identifiers" d = Some (YList l) /\ Forall well_shaped l /\ In (YDict i) l /\ assoc "name" i = Some m /\ id_breaks i r
    | VIdTwice m => exists l v l', assoc "identifiers" d = Some (YList (l ++ v :: l')) /\ Forall well_shaped (l ++ v :: l') /\ named v m /\
                      exists w m', In w l /\ named w m' /\ eq_name m m'
    | VIdPart m p => exists l i parts j, assoc "identifiers" d = Some (YList l) /\ Forall well_shaped l /\ In (YDict i) l /\ assoc "name" i = Some m /\
                       assoc "identifiers" i = Some (YList parts) /\ In j parts /\ named j p /\
                       forall w m', In w l -> named w m' -> ~ eq_name p m'
    | _ => False
    end.

  (** Fields *)
  Definition key_field (f : vfield) : Prop := In f fs /\ vf_primary f = true /\ vf_measure f = false.
  Definition fields_break (r : vrule) : Prop :=
    match r with
    | VNoKey => forall f, In f fs -> vf_primary f = false
    | VField m e => exists f es, In f fs /\ vf_name f = m /\ vf_errors f = Ok es /\ In e es
    | VManyKeys => exists f g, key_field f /\ key_field g /\ vf_name f <> vf_name g
    | VTwice => ~ NoDup (map vf_name fs)
    | _ => False
    end.

  Definition view_breaks (d : ydict) (r : vrule) : Prop :=
    plain_breaks d r \/ table_breaks d r \/ date_breaks d r \/ sets_break d r \/ always_breaks d r \/ access_breaks d r \/ event_breaks d r
    \/ ids_break d r \/ fields_break r.

  (** *** When validation raises instead of returning errors *)
  Definition table_raises (d : ydict) : Prop :=
    (~ lacks d "sql_table_name" /\ ~ lacks d "derived_table" \/ value d "sql_table_name" (fun v => ~ Str v))
    /\ exists v e, assoc "sql_table_name" d = Some v /\ ve_table E v = Err e /\ e <> AttributeError.
  Definition odd_date (e : exc) : Prop := e <> AccessDenied /\ e <> QueryError.
  Definition date_raises (d : ydict) : Prop :=
    exists s e, is_text d "default_date" s /\ s <> "" /\ odd_date e /\
      (ve_by_name E (in_view s) = Err e \/ (exists i, ve_by_name E (in_view s) = Ok i) /\ ve_joinable E n = Err e).
  Definition sets_raise (d : ydict) : Prop := exists s, element d "sets" (YDict s) /\ complete s /\ value s "name" (fun v => ~ Str v).
  (** A name that is looked up and answered with another error than a missing field *)
  Definition odd (q : string) (e : exc) : Prop := ve_get_field E q = Err e /\ e <> AccessDenied.
  Definition always_raises (d : ydict) : Prop :=
    exists f, element d "always_filter" (YDict f) /\ (value f "field" (fun v => ~ Str v) \/ exists s e, is_text f "field" s /\ odd (in_view s) e).
  Definition access_raises (d : ydict) : Prop :=
    exists f, element d "access_filters" (YDict f) /\ (value f "field" (fun v => ~ Str v) \/ exists s e, is_text f "field" s /\ odd s e).
  Definition event_raises (d : ydict) : Prop :=
    exists s, is_text d "event_dimension" s /\
      (contains "." s = false /\ (exists e, odd (n ++ "." ++ s)%string e)
       \/ contains "." s = true /\ lacks d "default_date"
       \/ contains "." s = true /\ (exists t e, is_text d "default_date" t /\ t <> "" /\ odd t e)
       \/ contains "." s = true /\ exists v e, assoc "default_date" d = Some v /\ ~ Str v /\ ve_str E v <> "" /\ odd (ve_str E v) e).
  (** An identifier whose check fails with [e] *)
  Definition looked_up (q : string) : string := let '(_, v, c) := field_name_parts q in ((match v with Some v => v | None => n end) ++ "." ++ c)%string.
  Definition id_fails (i : ydict) (e : exc) : Prop :=
    exists m t, is_text i "name" m /\ is_text i "type" t /\ e <> AccessDenied /\
      (t = "join" /\ (exists v, is_text i "reference" v /\ ve_views E v = Err e)
       \/ (t = "primary" \/ t = "foreign") /\ lacks i "sql" /\ lacks i "identifiers" /\ ve_get_field E (n ++ "." ++ m)%string = Err e
       \/ (t = "primary" \/ t = "foreign") /\ exists s qs q qs', is_text i "sql" s /\ contains "${" s = true /\ fields_to_replace s = qs ++ q :: qs' /\
            q <> "TABLE" /\ ve_get_field E (looked_up q) = Err e /\
            forall p, In p qs -> p = "TABLE" \/ forall e', ~ odd (looked_up p) e').
  (** A name that cannot be put in a set: a list or a mapping *)
  Definition no_key (v : yv) : Prop := List_ v \/ Dict v.
  Definition name_fails (all : list yv) (i : ydict) : Prop :=
    (exists m, assoc "name" i = Some m /\ no_key m)
    \/ exists parts j, assoc "identifiers" i = Some (YList parts) /\ In j parts /\
         ((exists p, named j p /\ no_key p) \/ exists w m, In w all /\ named w m /\ no_key m).
  Definition ids_raise (d : ydict) : Prop :=
    exists l i l', assoc "identifiers" d = Some (YList (l ++ YDict i :: l')) /\ Forall well_shaped (l ++ YDict i :: l') /\
      (forall j, In (YDict j) l -> ~ id_fails j QueryError) /\
      ((exists e, e <> QueryError /\ id_fails i e) \/ ~ id_fails i QueryError /\ name_fails (l ++ YDict i :: l') i).
  Definition fields_raise : Prop := exists f e, In f fs /\ vf_errors f = Err e.
  Definition view_raises (d : ydict) : Prop :=
    table_raises d \/ date_raises d \/ sets_raise d \/ always_raises d \/ access_raises d \/ event_raises d \/ ids_raise d \/ fields_raise.
End Spec.
(** The view has a model *)
Definition modelled (E : venv) (d : ydict) : Prop :=
  value d "model_name" (OneOf (ve_models E)) \/ lacks d "model_name" /\ value d "model" (fun v => v <> YNull).
