(** Model.collect_errors, core/model/model.py:95-366, with the properties access_grants and mappings, and
    AccessGrant, 31-92.  As in FieldCheck_Model a definition is a YAML mapping (keys are texts) and an error is the
    rule it reports; message texts and positions in the file are left out. *)
From Coq Require Import List String ZArith Bool.
From Verif Require Import PyBase PyStr PyRefs PyReplace Names_Model FieldCheck_Model ViewCheck_Model.
Import ListNotations.
Local Open Scope string_scope.
Local Open Scope list_scope.

Inductive grantrule := GName | GAttribute | GValues | GValuesText | GKey (k : string).
Inductive mapfault := PNotDict | PReserved (k : string) | PProject.
Inductive maprule := PName | PValue | PLink | PGroup | PDescription | PFields | PField (f : string) | PKey (k : string).
Inductive mrule :=
| MName | MConnection | MLabel | MOffset | MWeek | MTimezone | MConvert
| MGrantsList | MGrantsDicts | MGrantMissing (k : string) | MGrant (name : string) (r : grantrule)
| MMapFault (f : mapfault) | MMap (name : string) (r : maprule) | MMapQuery
| MProperty (k : string).

(** What the check asks of its surroundings *)
Record menv := MEnv {
  me_order : list string;                            (* SPECIAL_MAPPING_VALUES, a set, in the order it is iterated *)
  me_special : string -> res (list string);          (* 151-160: the canon dates of project.fields() that exist for this timeframe *)
  me_reraise : bool;                                 (* a QueryError of me_special says that a field misses a required key *)
  me_get_field : string -> res unit;                 (* project.get_field(name) *)
  me_timezone : yv -> bool;                          (* pendulum.timezone(str(v)) does not raise *)
  me_str : yv -> string                              (* str(v) *)
}.
(** 17-26 *)
Definition special_names := ["date"; "day_of_year"; "week_of_year"; "week"; "month_of_year"; "month"; "quarter"; "year"].
(** week_start_day_types.py:1-10 *)
Definition week_days := ["monday"; "tuesday"; "wednesday"; "thursday"; "friday"; "saturday"; "sunday"].
(** 32 and 96-109 *)
Definition grant_keys := ["name"; "user_attribute"; "allowed_values"].
Definition model_keys := ["version"; "type"; "name"; "label"; "connection"; "week_start_day"; "timezone"; "default_convert_tz"; "fiscal_month_offset"; "access_grants"; "mappings"].
Definition model_internal := ["_file_path"].
(** 254 *)
Definition map_keys := ["fields"; "group_label"; "description"; "link"; "label"].

(** Errors appended so far and the exception that ended the loop *)
Definition wr := (list mrule * option exc)%type.
Definition wseq (a b : wr) : wr := match a with (l, None) => (l ++ fst b, snd b) | (l, Some e) => (l, Some e) end.
Fixpoint wall {A} (f : A -> wr) (l : list A) : wr := match l with [] => ([], None) | x :: r => wseq (f x) (wall f r) end.

Section Check.
  Variable E : menv.

  (** AccessGrant.validate, 39-46, and collect_errors, 51-92.  A grant that is not a mapping: [in] looks in the text
      or the list, and [get] of the definition raises *)
  Definition grant_errors (v : yv) : res (list mrule) :=
    match v with
    | YDict g =>
        if negb (has "name" g) then Ok [MGrantMissing "name"]
        else if negb (has "user_attribute" g) then Ok [MGrantMissing "user_attribute"]
        else if negb (has "allowed_values" g) then Ok [MGrantMissing "allowed_values"]
        else match get "name" g with
             | Some (YStr n) =>
                 Ok (map (MGrant n)
                       (say (negb (valid_name n)) GName
                        ++ say (bad "user_attribute" is_str g) GAttribute
                        ++ match get "allowed_values" g with
                           | Some (YList l) => say (forallb (fun v => negb (is_str v)) l) GValuesText
                           | _ => [GValues]
                           end
                        ++ map GKey (List.filter (fun k => negb (mem k grant_keys)) (map fst g))))
             | _ => Err TypeError
             end
    | YStr s => if contains "name" s then Err AttributeError else Ok [MGrantMissing "name"]
    | YList l => if existsb (same (YStr "name")) l then Err AttributeError else Ok [MGrantMissing "name"]
    | _ => Err TypeError
    end.
  (** access_grants, 132-142, and 241-252 *)
  Definition grants_errors (d : ydict) : res (list mrule) :=
    match get "access_grants" d with
    | None => Ok []
    | Some (YList l) => if forallb (fun v => negb (is_dict v)) l then Ok [MGrantsDicts] else concatM grant_errors l
    | Some _ => Ok [MGrantsList]
    end.

  (** mappings, 144-170 *)
  Inductive mres := MDone (l : ydict) | MFault (f : mapfault) | MRaise (e : exc).
  Definition special_value (k : string) (fs : list string) : yv :=
    YDict [("fields", YList (map YStr fs)); ("group_label", YStr "Dates");
           ("description", YStr ("The " ++ k ++ " associated with the metric or metrics you have in your query. When in doubt, use this to trend metrics over time.")%string)].
  Fixpoint specials (order : list string) (m : ydict) : mres :=
    match order with
    | [] => MDone m
    | k :: r =>
        if has k m then MFault (PReserved k)
        else match me_special E k with
             | Ok fs => specials r (m ++ [(k, special_value k fs)])
             | Err QueryError => MFault PProject
             | Err e => MRaise e
             end
    end.
  (** An AttributeError inside the property makes Python read the definition, base.py:14-15 *)
  Definition mappings (d : ydict) : mres :=
    match get "mappings" d with
    | None => match specials (me_order E) [] with MRaise AttributeError => MRaise AttributeError | x => x end
    | Some (YDict m) => match specials (me_order E) m with MRaise AttributeError => MDone m | x => x end
    | Some _ => MFault PNotDict
    end.
  (** 255-345: one mapping *)
  Definition field_error (n : string) (v : yv) : wr :=
    match v with
    | YStr f => match me_get_field E f with Ok _ => ([], None) | Err AccessDenied => ([MMap n (PField f)], None) | Err e => ([], Some e) end
    | _ => ([], Some TypeError)
    end.
  Definition map_errors (e : string * yv) : wr :=
    let (n, v) := e in
    wseq (say (negb (valid_name n)) (MMap n PName), None)
      match v with
      | YDict m =>
          wseq (say (bad "link" is_str m) (MMap n PLink) ++ say (bad "group_label" is_str m) (MMap n PGroup) ++ say (bad "description" is_str m) (MMap n PDescription), None)
            (wseq match get "fields" m with
                  | None => ([], Some KeyError)
                  | Some (YList l) => wall (field_error n) l
                  | Some _ => ([MMap n PFields], None)
                  end
                  (map (fun k => MMap n (PKey k)) (List.filter (fun k => negb (mem k map_keys)) (map fst m)), None))
      | _ => ([MMap n PValue], None)
      end.
  (** 346-352; the text of PNotDict shows the value *)
  Definition field_text (s : string) : bool := contains "Field" s && contains "missing required key" s.
  Definition fault_raises (d : ydict) (f : mapfault) : bool :=
    match f with
    | PNotDict => match get "mappings" d with Some v => field_text (me_str E v) | None => false end
    | PReserved _ => false
    | PProject => me_reraise E
    end.
  Definition mapping_errors (d : ydict) : res (list mrule) :=
    match mappings d with
    | MFault f => if fault_raises d f then Err QueryError else Ok [MMapFault f]
    | MRaise e => Err e
    | MDone l =>
        match wall map_errors l with
        | (es, None) => Ok es
        | (es, Some QueryError) => Ok (es ++ [MMapQuery])
        | (_, Some e) => Err e
        end
    end.
  (** 170-366; [d] has the keys name and connection, 117-125 *)
  Definition collect_errors (d : ydict) : res (list mrule) :=
    match get "name" d with
    | Some (YStr n) =>
        g <- grants_errors d ;;
        m <- mapping_errors d ;;
        Ok (say (negb (valid_name n)) MName
            ++ say (bad "connection" is_str d) MConnection
            ++ say (bad "label" is_str d) MLabel
            ++ say (bad "fiscal_month_offset" is_int d) MOffset
            ++ say (has "week_start_day" d && negb (str_in (get "week_start_day" d) week_days)) MWeek
            ++ say (bad "timezone" (me_timezone E) d) MTimezone
            ++ say (bad "default_convert_tz" is_bool d) MConvert
            ++ g ++ m
            ++ map MProperty (List.filter (fun k => negb (mem k (model_internal ++ model_keys))) (map fst d)))
    | _ => Err TypeError
    end.
End Check.
