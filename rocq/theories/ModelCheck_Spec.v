(** When the definition of a model breaks a rule: specification of the checks of a model, stated on the definition
    and on what the project answers. *)
From Coq Require Import List String ZArith Bool.
From Verif Require Import PyBase PyStr PyRefs PyReplace Names_Model Names_Props FieldCheck_Model FieldCheck_Spec ViewCheck_Spec ModelCheck_Model.
Import ListNotations.
Local Open Scope string_scope.
Local Open Scope list_scope.

Definition days := ["monday"; "tuesday"; "wednesday"; "thursday"; "friday"; "saturday"; "sunday"].
Definition known_model_keys := ["name"; "connection"; "type"; "version"; "label"; "week_start_day"; "timezone"; "default_convert_tz"; "fiscal_month_offset"; "access_grants"; "mappings"; "_file_path"].

Section Spec.
  Variable E : menv.
  Variable n : string.                              (* the name of the model *)

  Definition plain_model_breaks (d : ydict) (r : mrule) : Prop :=
    match r with
    | MName => ~ proper_name n
    | MConnection => value d "connection" (fun v => ~ Str v)
    | MLabel => value d "label" (fun v => ~ Str v)
    | MOffset => value d "fiscal_month_offset" (fun v => ~ Int v)
    | MWeek => value d "week_start_day" (fun v => ~ OneOf days v)
    | MTimezone => value d "timezone" (fun v => me_timezone E v = false)
    | MConvert => value d "default_convert_tz" (fun v => ~ Bool_ v)
    | MProperty k => In k (map fst d) /\ ~ In k known_model_keys
    | _ => False
    end.

  (** Access grants: [checked_grant v] when the grants are read one by one and [v] is one of them *)
  Definition checked_grant (d : ydict) (v : yv) : Prop := element d "access_grants" v /\ exists g, element d "access_grants" (YDict g).
  Definition first_missing (g : ydict) (k : string) : Prop :=
    lacks g "name" /\ k = "name"
    \/ ~ lacks g "name" /\ lacks g "user_attribute" /\ k = "user_attribute"
    \/ ~ lacks g "name" /\ ~ lacks g "user_attribute" /\ lacks g "allowed_values" /\ k = "allowed_values".
  Definition whole (g : ydict) : Prop := ~ lacks g "name" /\ ~ lacks g "user_attribute" /\ ~ lacks g "allowed_values".
  Definition grant_breaks (m : string) (g : ydict) (r : grantrule) : Prop :=
    match r with
    | GName => ~ proper_name m
    | GAttribute => value g "user_attribute" (fun v => ~ Str v)
    | GValues => value g "allowed_values" (fun v => ~ List_ v)
    | GValuesText => exists l, assoc "allowed_values" g = Some (YList l) /\ forall v, In v l -> ~ Str v
    | GKey k => In k (map fst g) /\ k <> "name" /\ k <> "user_attribute" /\ k <> "allowed_values"
    end.
  Definition grants_break (d : ydict) (r : mrule) : Prop :=
    match r with
    | MGrantsList => value d "access_grants" (fun v => ~ List_ v)
    | MGrantsDicts => exists l, assoc "access_grants" d = Some (YList l) /\ forall v, In v l -> ~ Dict v
    | MGrantMissing k => exists v, checked_grant d v /\
        ((exists g, v = YDict g /\ first_missing g k)
         \/ k = "name" /\ ((exists s, v = YStr s /\ contains "name" s = false) \/ exists l, v = YList l /\ ~ In (YStr "name") l))
    | MGrant m r => exists g, checked_grant d (YDict g) /\ whole g /\ is_text g "name" m /\ grant_breaks m g r
    | _ => False
    end.
  Definition grants_raise (d : ydict) : Prop :=
    exists v, checked_grant d v /\
      ((~ Dict v /\ ~ Str v /\ ~ List_ v)
       \/ (exists s, v = YStr s /\ contains "name" s = true)
       \/ (exists l, v = YList l /\ In (YStr "name") l)
       \/ exists g, v = YDict g /\ whole g /\ value g "name" (fun w => ~ Str w)).

  (** Mappings *)
  Definition user (d m : ydict) : Prop := assoc "mappings" d = Some (YDict m) \/ lacks d "mappings" /\ m = [].
  Definition free (m : ydict) (k : string) : Prop := lacks m k /\ exists fs, me_special E k = Ok fs.
  (** the reserved names are taken up to [k] *)
  Definition stops_at (d m : ydict) (k : string) : Prop := user d m /\ exists o o', me_order E = o ++ k :: o' /\ Forall (free m) o.
  Definition special_entry (k : string) (e : string * yv) : Prop := exists fs, me_special E k = Ok fs /\ e = (k, special_value k fs).
  (** all the mappings of the model: the ones of the definition and the dates *)
  Definition entries (d l : ydict) : Prop :=
    exists m, user d m /\
      ((exists s, Forall (fun k => lacks m k) (me_order E) /\ Forall2 special_entry (me_order E) s /\ l = m ++ s)
       \/ l = m /\ ~ lacks d "mappings" /\ exists k, stops_at d m k /\ lacks m k /\ me_special E k = Err AttributeError).
  Definition map_breaks (m : string) (v : yv) (r : maprule) : Prop :=
    match r with
    | PName => ~ proper_name m
    | PValue => ~ Dict v
    | PLink => exists c, v = YDict c /\ value c "link" (fun w => ~ Str w)
    | PGroup => exists c, v = YDict c /\ value c "group_label" (fun w => ~ Str w)
    | PDescription => exists c, v = YDict c /\ value c "description" (fun w => ~ Str w)
    | PFields => exists c, v = YDict c /\ value c "fields" (fun w => ~ List_ w)
    | PField f => exists c, v = YDict c /\ element c "fields" (YStr f) /\ me_get_field E f = Err AccessDenied
    | PKey k => exists c, v = YDict c /\ In k (map fst c) /\ ~ In k ["fields"; "group_label"; "description"; "link"; "label"]
    end.
  Definition maps_break (d : ydict) (r : mrule) : Prop :=
    match r with
    | MMapFault PNotDict => value d "mappings" (fun v => ~ Dict v)
    | MMapFault (PReserved k) => exists m, stops_at d m k /\ ~ lacks m k
    | MMapFault PProject => exists m k, stops_at d m k /\ lacks m k /\ me_special E k = Err QueryError
    | MMap m r => exists l v, entries d l /\ In (m, v) l /\ map_breaks m v r
    | _ => False
    end.
  (** a mapped field, a mapping, the mappings fail with [e] *)
  Definition field_fails (v : yv) (e : exc) : Prop := ~ Str v /\ e = TypeError \/ exists f, v = YStr f /\ me_get_field E f = Err e /\ e <> AccessDenied.
  Definition entry_fails (x : string * yv) (e : exc) : Prop :=
    exists c, snd x = YDict c /\
      (lacks c "fields" /\ e = KeyError
       \/ exists l f l', assoc "fields" c = Some (YList (l ++ f :: l')) /\ (forall g e', In g l -> ~ field_fails g e') /\ field_fails f e).
  Definition entries_fail (l : ydict) (e : exc) : Prop :=
    exists l1 x l2, l = l1 ++ x :: l2 /\ (forall y e', In y l1 -> ~ entry_fails y e') /\ entry_fails x e.
  Definition maps_raise (d : ydict) : Prop :=
    (exists v, assoc "mappings" d = Some v /\ ~ Dict v /\ contains "Field" (me_str E v) = true /\ contains "missing required key" (me_str E v) = true)
    \/ (exists m k, stops_at d m k /\ lacks m k /\ me_special E k = Err QueryError /\ me_reraise E = true)
    \/ (exists m k e, stops_at d m k /\ lacks m k /\ me_special E k = Err e /\ e <> QueryError /\ (e = AttributeError -> lacks d "mappings"))
    \/ exists l e, entries d l /\ entries_fail l e /\ e <> QueryError.
  Definition model_breaks (d : ydict) (r : mrule) : Prop := plain_model_breaks d r \/ grants_break d r \/ maps_break d r.
End Spec.
