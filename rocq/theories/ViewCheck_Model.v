(** View.collect_errors with its helpers, core/model/view.py:49-170 and 193-950, and Set.collect_errors,
    core/model/set.py:14-71.  As in FieldCheck_Model a definition is a YAML mapping and an error is the rule
    it reports; message texts and positions in the file are left out.  [d] is the definition after View.__init__
    (46-54), which lowers the name and adds an empty list of sets. *)
From Coq Require Import List String ZArith Bool.
From Verif Require Import PyBase PyStr PyRefs PyReplace Names_Model FieldCheck_Model.
Import ListNotations.
Local Open Scope string_scope.
Local Open Scope list_scope.

(** What is wrong with an identifier: faults raise in the property [identifiers] (66-124), rules are reported *)
Inductive idfault := FNotList | FNotDict (v : yv) | FNoName | FNoType | FPartsNotList | FPart (v : yv) | FPartName (m : ydict)
| FNoRelationship | FRelationship | FNoSqlOn | FNoReference.
Inductive idrule := INameType | IName | IType | ITypeOption | INoReference | IReferenceType | IReference | IJoinType | IRelationship | ISqlOn
| ISql | ISqlPlain | ISqlRef (r : string) | INoField | IPartsNotList | IPartsType | IPart (v : yv) | IPartName
| IJoinAs | IJoinAsLabel | IJoinAsPrefix | IMetrics | IKey (k : string).
Inductive setrule := SName | SView | SFieldsType | SField (f : string) | SKey (k : string).
Inductive vrule :=
| VFields | VModel
| VName | VLabel | VDescription | VDescriptionLong | VHidden | VRowLabel | VExtra | VEventName | VForAnalysis
| VTwoTables | VNoTable | VTable | VDerived | VNoDerivedSql | VDerivedSql
| VDateType | VDateKind | VDateFar | VDateMissing
| VSets | VSetItem (v : yv) | VSetKeys | VSet (name : string) (r : setrule)
| VAlways | VAlwaysItem (v : yv) | VAlwaysNoField | VAlwaysField (f : string) | VAlwaysNoValue | VAlwaysValue (v : yv)
| VNoKey
| VAccess | VAccessItem (v : yv) | VAccessNoField | VAccessField (f : string) | VAccessNoAttr | VAccessAttr (v : yv)
| VGrants | VGrantType (v : yv) | VGrant (g : string)
| VEventType | VEvent
| VIdFault (f : idfault) | VIdQuery | VId (name : yv) (r : idrule) | VIdTwice (name : yv) | VIdPart (name part : yv)
| VField (name : string) (e : nat * rule)
| VManyKeys | VTwice
| VProperty (k : string).
Definition say {R} (b : bool) (r : R) : list R := if b then [r] else [].

(** A field of the view: name, whether primary_key is truthy, whether it is a measure, Field.collect_errors() *)
Record vfield := VFld { vf_name : string; vf_primary : bool; vf_measure : bool; vf_errors : res (list (nat * rule)) }.

(** What the check asks of the project *)
Record venv := VEnv {
  ve_fields : res (list vfield);                     (* self.fields(show_hidden=True) *)
  ve_models : list string;                           (* the names of the models *)
  ve_views : string -> res unit;                     (* project.get_view(name) *)
  ve_get_field : string -> res unit;                 (* project.get_field(name) *)
  ve_by_name : string -> res finfo;                  (* project.get_field_by_name(name) *)
  ve_joinable : string -> res (list string);         (* project.get_joinable_views(view) *)
  ve_grants : list string;                           (* the names get_access_grant finds *)
  ve_set_names : string -> ydict -> res (list string); (* Set({..s, view_name}).field_names() *)
  ve_readable : ydict -> bool;                       (* Filter(f).filter_dict() does not raise *)
  ve_table : yv -> res unit;                         (* resolve_sql_table_name(str(value)) *)
  ve_str : yv -> string                              (* str(value) *)
}.

Definition relationship_options := ["many_to_one"; "one_to_one"; "one_to_many"; "many_to_many"].
Definition join_type_options := ["left_outer"; "inner"; "full_outer"; "cross"].
Definition identifier_options := ["primary"; "foreign"; "join"].
Definition view_description_max_chars : nat := 1024.
(** 21-44 *)
Definition view_properties := ["version"; "type"; "name"; "model_name"; "label"; "description"; "hidden"; "sql_table_name"; "derived_table"; "default_date"; "row_label";
  "sets"; "always_filter"; "access_filters"; "required_access_grants"; "event_dimension"; "event_name"; "extra"; "identifiers"; "fields"; "fields_for_analysis"].
Definition view_internal := ["model"; "field_prefix"; "_file_path"].

Section Check.
  Variable E : venv.

  (** model, 142-153 and 209-219: whether there is one.  Simplified: a model_name that is not a text names no model. *)
  Definition has_model (d : ydict) : bool :=
    match get "model_name" d with
    | Some (YStr s) => mem s (ve_models E)
    | Some _ => false
    | None => match get "model" d with Some YNull | None => false | Some _ => true end
    end.

  (** sql_table_name, 56-62; an AttributeError makes Python read the definition *)
  Definition table (d : ydict) : res unit :=
    match get "sql_table_name" d with
    | None => Ok tt
    | Some v => match ve_table E v with Err AttributeError => Ok tt | r => r end
    end.
  (** 259-292; the message of two tables, no table or a table that is not a text reads the property *)
  Definition table_errors (d : ydict) : res (list vrule) :=
    let t := has "sql_table_name" d in let q := has "derived_table" d in
    _ <- (if (t && q) || bad "sql_table_name" is_str d then table d else Ok tt) ;;
    Ok (say (t && q) VTwoTables ++ say (negb t && negb q) VNoTable ++ say (bad "sql_table_name" is_str d) VTable).
  (** 294-328 *)
  Definition derived_errors (d : ydict) : list vrule :=
    match get "derived_table" d with
    | None => []
    | Some (YDict m) => say (negb (has "sql" m)) VNoDerivedSql ++ say (bad "sql" is_str m) VDerivedSql
    | Some _ => [VDerived]
    end.
  Definition dotted (n s : string) : string := if contains "." s then s else (n ++ "." ++ s)%string.
  (** 330-378; kind and distance are reported before an exception of the join graph *)
  Definition date_errors (n : string) (d : ydict) : res (list vrule) :=
    match get "default_date" d with
    | None => Ok []
    | Some (YStr s) =>
        if String.eqb s "" then Ok []
        else match ve_by_name E (dotted n s) with
             | Ok i =>
                 let kind := say (negb (String.eqb (fi_ftype i) "dimension_group") || negb (String.eqb (fi_type i) "time")) VDateKind in
                 match ve_joinable E n with
                 | Ok l => Ok (kind ++ say (negb (mem (fi_view i) (l ++ [n]))) VDateFar)
                 | Err AccessDenied | Err QueryError => Ok (kind ++ [VDateMissing])
                 | Err e => Err e
                 end
             | Err AccessDenied | Err QueryError => Ok [VDateMissing]
             | Err e => Err e
             end
    | Some _ => Ok [VDateType]
    end.

  (** Set.validate, set.py:20-24, and Set.collect_errors, 33-71, of a set of the view [n]: every exception of
      get_view, get_field and field_names is caught *)
  Definition set_keys := ["name"; "fields"; "view_name"].
  Definition set_errors (n : string) (s : ydict) : res (list vrule) :=
    if negb (has "name" s) || negb (has "fields" s) then Ok [VSetKeys]
    else match get "name" s with
         | Some (YStr name) =>
             let fields := match get "fields" s with
                           | Some (YList _) =>
                               match ve_set_names E n s with
                               | Ok l => flat_map (fun f => say (negb (is_ok (ve_get_field E f))) (SField f)) l
                               | Err _ => []
                               end
                           | _ => [SFieldsType]
                           end in
             Ok (map (VSet name)
                   (say (negb (valid_name name)) SName
                    ++ say (valid_name n && negb (is_ok (ve_views E n))) SView
                    ++ fields
                    ++ map SKey (List.filter (fun k => negb (mem k set_keys)) (map fst s))))
         | _ => Err TypeError
         end.
  (** 396-415 *)
  Definition sets_errors (n : string) (d : ydict) : res (list vrule) :=
    match get "sets" d with
    | None => Ok []
    | Some (YList l) => concatM (fun v => match v with YDict s => set_errors n s | _ => Ok [VSetItem v] end) l
    | Some _ => Ok [VSets]
    end.

  (** Field.collect_field_filter_errors, field.py:2701-2740, after 434-435 wrote the view into the definition *)
  Definition always_error (n : string) (f : ydict) : res (list vrule) :=
    a <- match get "field" f with
         | None => Ok [VAlwaysNoField]
         | Some (YStr s) => match ve_get_field E (dotted n s) with Ok _ => Ok [] | Err AccessDenied => Ok [VAlwaysField (dotted n s)] | Err e => Err e end
         | Some _ => Err TypeError
         end ;;
    Ok (a ++ match get "value" f with
             | None => [VAlwaysNoValue]
             | Some (YStr _) => []
             | Some v =>
                 let f' := match get "field" f with Some (YStr s) => set_key "field" (YStr (dotted n s)) f | _ => f end in
                 say (negb (has "field" f && ve_readable E f')) (VAlwaysValue v)
             end).
  (** 417-441 *)
  Definition always_errors (n : string) (d : ydict) : res (list vrule) :=
    match get "always_filter" d with
    | None => Ok []
    | Some (YList l) => concatM (fun v => match v with YDict f => always_error n f | _ => Ok [VAlwaysItem v] end) l
    | Some _ => Ok [VAlways]
    end.

  (** 463-506; the field keeps the name it is written with *)
  Definition access_error (f : ydict) : res (list vrule) :=
    a <- match get "field" f with
         | None => Ok [VAccessNoField]
         | Some (YStr s) => match ve_get_field E s with Ok _ => Ok [] | Err AccessDenied => Ok [VAccessField s] | Err e => Err e end
         | Some _ => Err TypeError
         end ;;
    Ok (a ++ match get "user_attribute" f with None => [VAccessNoAttr] | Some v => say (negb (is_str v)) (VAccessAttr v) end).
  (** 450-506 *)
  Definition access_errors (d : ydict) : res (list vrule) :=
    match get "access_filters" d with
    | None => Ok []
    | Some (YList l) => concatM (fun v => match v with YDict f => access_error f | _ => Ok [VAccessItem v] end) l
    | Some _ => Ok [VAccess]
    end.
  (** 646-687 *)
  Definition view_grants_errors (d : ydict) : list vrule :=
    match get "required_access_grants" d with
    | None => []
    | Some (YList l) => flat_map (fun v => match v with YStr g => say (negb (mem g (ve_grants E))) (VGrant g) | _ => [VGrantType v] end) l
    | Some _ => [VGrants]
    end.

  (** event_dimension, 133-139: a name with a view gives the default date instead *)
  Definition event_dimension (n : string) (d : ydict) (s : string) : res string :=
    if contains "." s then match get "default_date" d with Some v => Ok (match v with YStr t => t | _ => ve_str E v end) | None => Err KeyError end
    else Ok (n ++ "." ++ s)%string.
  (** 517-541 *)
  Definition event_errors (n : string) (d : ydict) : res (list vrule) :=
    match get "event_dimension" d with
    | None => Ok []
    | Some (YStr s) =>
        q <- event_dimension n d s ;;
        if String.eqb q "" then Ok []
        else match ve_get_field E q with Ok _ => Ok [] | Err AccessDenied => Ok [VEvent] | Err e => Err e end
    | Some _ => Ok [VEventType]
    end.

  (** The property identifiers, 66-124: the first fault of one identifier *)
  Definition part_fault (v : yv) : option idfault :=
    match v with
    | YDict m => if has "name" m then None else Some (FPartName m)
    | _ => Some (FPart v)
    end.
  Fixpoint first_some {A B} (f : A -> option B) (l : list A) : option B :=
    match l with [] => None | x :: r => match f x with Some y => Some y | None => first_some f r end end.
  Definition id_fault (v : yv) : option idfault :=
    match v with
    | YDict i =>
        if negb (has "name" i) then Some FNoName
        else if negb (has "type" i) then Some FNoType
        else
          match match get "identifiers" i with
                | None => None
                | Some (YList l) => first_some part_fault l
                | Some _ => Some FPartsNotList
                end with
          | Some f => Some f
          | None =>
              if eq_str (get "type" i) "join" then
                if negb (has "relationship" i) then Some FNoRelationship
                else if negb (str_in (get "relationship" i) relationship_options) then Some FRelationship
                else if negb (has "sql_on" i) then Some FNoSqlOn
                else if negb (has "reference" i) then Some FNoReference
                else None
              else None
          end
    | _ => Some (FNotDict v)
    end.
  Definition identifiers (d : ydict) : idfault + list yv :=
    match get "identifiers" d with
    | None => inr []
    | Some (YList l) => match first_some id_fault l with Some f => inl f | None => inr l end
    | Some _ => inl FNotList
    end.

  (** collect_identifier_errors, 689-950: the rules of custom joins and of the other types *)
  Definition custom_keys := ["sql_on"; "reference"; "join_type"; "relationship"].
  Definition key_keys := ["sql"; "allowed_fanouts"; "identifiers"].
  Definition join_as_keys := ["join_as"; "join_as_label"; "join_as_field_prefix"; "include_metrics"].
  Definition custom_errors (i : ydict) : res (list idrule) :=
    a <- match get "reference" i with
         | None => Ok [INoReference]
         | Some (YStr v) => match ve_views E v with Ok _ => Ok [] | Err AccessDenied => Ok [IReference] | Err e => Err e end
         | Some _ => Ok [IReferenceType]
         end ;;
    Ok (a ++ say (has "join_type" i && negb (str_in (get "join_type" i) join_type_options)) IJoinType
          ++ say (has "relationship" i && negb (str_in (get "relationship" i) relationship_options)) IRelationship
          ++ say (bad "sql_on" is_str i) ISqlOn).
  Definition key_errors (n name type : string) (i : ydict) : res (list idrule) :=
    match get "sql" i with
    | Some (YStr s) =>
        if negb (contains "${" s) then Ok [ISqlPlain]
        else concatM (fun r =>
               if String.eqb r "TABLE" then Ok []
               else let '(_, v, c) := field_name_parts r in
                    match ve_get_field E ((match v with Some v => v | None => n end) ++ "." ++ c)%string with
                    | Ok _ => Ok [] | Err AccessDenied => Ok [ISqlRef r] | Err e => Err e end) (fields_to_replace s)
    | Some _ => Ok [ISql]
    | None =>
        match get "identifiers" i with
        | None => match ve_get_field E (n ++ "." ++ name)%string with Ok _ => Ok [] | Err AccessDenied => Ok [INoField] | Err e => Err e end
        | Some (YList l) => Ok (say (negb (String.eqb type "primary")) IPartsType
                                ++ flat_map (fun v => match v with YDict m => say (negb (has "name" m)) IPartName | _ => [IPart v] end) l)
        | Some _ => Ok [IPartsNotList]
        end
    end.
  Definition id_errors (n : string) (i : ydict) : res (list idrule) :=
    match get "name" i with
    | None => Err KeyError
    | Some (YStr name) =>
        let a := say (negb (valid_name name)) IName in
        match get "type" i with
        | None => Err KeyError
        | Some (YStr t) =>
            if negb (mem t identifier_options) then Ok (a ++ [ITypeOption])
            else
              b <- (if String.eqb t "join" then custom_errors i else key_errors n name t i) ;;
              let own := if String.eqb t "join" then custom_keys else key_keys in
              Ok (a ++ b
                  ++ (if has "join_as" i then
                        say (bad "join_as" is_str i) IJoinAs ++ say (bad "join_as_label" is_str i) IJoinAsLabel
                        ++ say (bad "join_as_field_prefix" is_str i) IJoinAsPrefix ++ say (bad "include_metrics" is_bool i) IMetrics
                      else [])
                  ++ map IKey (List.filter (fun k => negb (mem k (own ++ ["name"; "type"] ++ join_as_keys))) (map fst i)))
        | Some _ => Ok (a ++ [IType])
        end
    | Some _ => Ok [INameType]
    end.
  (** a == b for values that can be in a set; 1 == True.  Simplified: floats are never equal. *)
  Definition number (v : yv) : option Z := match v with YInt z => Some z | YBool b => Some (if b then 1%Z else 0%Z) | _ => None end.
  Definition same (a b : yv) : bool :=
    match a, b with
    | YNull, YNull => true
    | YStr s, YStr t => String.eqb s t
    | _, _ => match number a, number b with Some x, Some y => Z.eqb x y | _, _ => false end
    end.
  Definition hashable (v : yv) : bool := match v with YList _ | YDict _ => false | _ => true end.
  Definition id_dict (v : yv) : ydict := match v with YDict i => i | _ => [] end.
  Definition id_name (v : yv) : yv := match get "name" (id_dict v) with Some n => n | None => YNull end.
  (** 575-590: the parts of a composite key *)
  Definition parts_errors (all : list yv) (i : ydict) : res (list vrule) :=
    match get "identifiers" i with
    | Some (YList parts) =>
        concatM (fun p =>
          if forallb (fun v => hashable (id_name v)) all && hashable (id_name p)
          then Ok (say (negb (existsb (fun v => same (id_name p) (id_name v)) all)) (VIdPart (id_name (YDict i)) (id_name p)))
          else Err TypeError) parts
    | _ => Ok []
    end.
  (** 562-594: a QueryError ends the loop and keeps what was reported *)
  Fixpoint ids_loop (n : string) (all : list yv) (used : list yv) (l : list yv) : res (list vrule) :=
    match l with
    | [] => Ok []
    | v :: r =>
        let i := id_dict v in
        match id_errors n i with
        | Err QueryError => Ok [VIdQuery]
        | Err e => Err e
        | Ok es =>
            if hashable (id_name v) then
              ps <- parts_errors all i ;;
              rest <- ids_loop n all (used ++ [id_name v]) r ;;
              Ok (map (VId (id_name v)) es ++ say (existsb (same (id_name v)) used) (VIdTwice (id_name v)) ++ ps ++ rest)
            else Err TypeError
        end
    end.
  Definition ids_errors (n : string) (d : ydict) : res (list vrule) :=
    match identifiers d with
    | inl f => Ok [VIdFault f]
    | inr l => ids_loop n l [] l
    end.

  (** 596-628 *)
  Definition keys_of (fs : list vfield) : list string := dedup (map vf_name (List.filter (fun f => vf_primary f && negb (vf_measure f)) fs)).
  Definition fields_errors (fs : list vfield) : res (list vrule) :=
    es <- concatM (fun f => e <- vf_errors f ;; Ok (map (VField (vf_name f)) e)) fs ;;
    Ok (es ++ say (Nat.ltb 1 (List.length (keys_of fs))) VManyKeys
           ++ say (negb (Nat.eqb (List.length (map vf_name fs)) (List.length (dedup (map vf_name fs))))) VTwice).

  Definition view_long (d : ydict) : bool :=
    match get "description" d with Some (YStr s) => Nat.ltb view_description_max_chars (String.length s) | _ => false end.
  (** 201-640 *)
  Definition collect_errors (d : ydict) : res (list vrule) :=
    match ve_fields E with
    | Err QueryError => Ok [VFields]
    | Err e => Err e
    | Ok fs =>
        if negb (has_model d) then Ok [VModel]
        else match get "name" d with
        | Some (YStr n) =>
            t <- table_errors d ;;
            dt <- date_errors n d ;;
            st <- sets_errors n d ;;
            al <- always_errors n d ;;
            ac <- access_errors d ;;
            ev <- event_errors n d ;;
            ids <- ids_errors n d ;;
            fe <- fields_errors fs ;;
            Ok (say (negb (valid_name n)) VName
                ++ say (bad "label" is_str d) VLabel
                ++ say (bad "description" is_str d) VDescription
                ++ say (view_long d) VDescriptionLong
                ++ say (bad "hidden" is_bool d) VHidden
                ++ t ++ derived_errors d ++ dt
                ++ say (bad "row_label" is_str d) VRowLabel
                ++ say (bad "extra" is_dict d) VExtra
                ++ st ++ al
                ++ say (negb (existsb vf_primary fs)) VNoKey
                ++ ac ++ view_grants_errors d ++ ev
                ++ say (bad "event_name" is_str d) VEventName
                ++ say (bad "fields_for_analysis" is_list d) VForAnalysis
                ++ ids ++ fe
                ++ map VProperty (List.filter (fun k => negb (mem k (view_internal ++ view_properties))) (map fst d)))
        | _ => Err TypeError
        end
    end.
End Check.
