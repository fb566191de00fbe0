(** What filter values mean (C18) and which calendar ranges relative dates denote (C19). *)
From Coq Require Import QArith.
From Verif Require Import PyBase PyStr PyRx PyDate Core_Model Filter_Model.
Local Open Scope string_scope.
Local Open Scope list_scope.
Local Open Scope Z_scope.

(** ** SQL semantics of the criteria on one column value *)
Inductive cell := XNull | XStr (s : string) | XNum (q : Q) | XBool (b : bool) | XTime (t : Z).
(** LIKE: % any text, _ any character *)
Fixpoint like (p s : string) {struct p} : bool :=
  match p with
  | EmptyString => String.eqb s ""
  | String c p' =>
      if Ascii.eqb c "%" then
        (fix any (s : string) : bool := like p' s || match s with EmptyString => false | String _ r => any r end) s
      else match s with
           | EmptyString => false
           | String d r => (Ascii.eqb c "_" || Ascii.eqb c d) && like p' r
           end
  end.
Definition of_order (c : cmp) (o : comparison) : bool :=
  match c, o with
  | CmpLt, Lt | CmpLe, Lt | CmpLe, Eq | CmpEq, Eq | CmpNe, Lt | CmpNe, Gt | CmpGe, Eq | CmpGe, Gt | CmpGt, Gt => true
  | _, _ => false
  end.
(** Comparison of a column value with a literal; None is UNKNOWN (NULL), also used for literals of
    another type, on which warehouses differ. *)
Definition compare_cell (c : cmp) (x : cell) (v : cval) : option bool :=
  match x, v with
  | XNum a, CNum b => Some (of_order c (Qcompare a b))
  | XTime a, CTime b => Some (of_order c (Z.compare a b))
  | XStr a, CStr b => match c with CmpEq => Some (String.eqb a b) | CmpNe => Some (negb (String.eqb a b)) | _ => None end
  | XBool a, CBool b => match c with CmpEq => Some (Bool.eqb a b) | CmpNe => Some (negb (Bool.eqb a b)) | _ => None end
  | _, _ => None
  end.
Definition in_cell (x : cell) (v : cval) : option bool :=
  match x, v with
  | XStr a, CStrs l => Some (existsb (String.eqb a) l)
  | XNum a, CNums l => Some (existsb (Qeq_bool a) l)
  | _, _ => None
  end.
Definition eval_crit (k : crit) (x : cell) : option bool :=
  match k with
  | KCmp c v => compare_cell c x v
  | KLike fold neg p =>
      match x with
      | XStr s => let r := if fold then like (lower p) (lower s) else like p s in Some (if neg then negb r else r)
      | _ => None
      end
  | KIsNull => Some (match x with XNull => true | _ => false end)
  | KNotNull => Some (match x with XNull => false | _ => true end)
  | KIn v => in_cell x v
  | KNotIn v => option_map negb (in_cell x v)
  | KTrue => match x with XBool b => Some b | _ => None end
  | KNot => match x with XBool b => Some (negb b) | _ => None end
  end.

(** ** The documented forms of a filter value *)
Inductive form :=
| WNull | WNotNull | WBool (b : bool)
| WCmp (c : cmp) (digits : string) (q : Q)
| WEq (w : string) | WNe (w : string)
| WContains (w : string) | WStarts (w : string) | WEnds (w : string)
| WNotContains (w : string) | WNotStarts (w : string) | WNotEnds (w : string)
| WIn (ws : list string) | WNotIn (ws : list string)
| WAfter (date : string) (t : Z) | WBefore (date : string) (t : Z) | WOn (date : string) (t : Z) | WNotOn (date : string) (t : Z).
Definition symbol (c : cmp) : string :=
  match c with CmpLt => "<" | CmpLe => "<=" | CmpEq => "=" | CmpNe => "!=" | CmpGe => ">=" | CmpGt => ">" end.
Definition write (f : form) : string :=
  (match f with
   | WNull => "NULL" | WNotNull => "-NULL" | WBool true => "TRUE" | WBool false => "FALSE"
   | WCmp c d _ => symbol c ++ d
   | WEq w => w | WNe w => "-" ++ w
   | WContains w => "%" ++ w ++ "%" | WStarts w => w ++ "%" | WEnds w => "%" ++ w
   | WNotContains w => "-%" ++ w ++ "%" | WNotStarts w => "-" ++ w ++ "%" | WNotEnds w => "-%" ++ w
   | WIn ws => join_with ", " ws
   | WNotIn ws => join_with ", " (map (fun w => "-" ++ w) ws)
   | WAfter d _ => "after " ++ d | WBefore d _ => "before " ++ d | WOn d _ => "on " ++ d | WNotOn d _ => "not on " ++ d
   end)%string.

Fixpoint ends_in (p s : string) : bool :=
  String.eqb p s || match s with EmptyString => false | String _ r => ends_in p r end.
(** On a NULL the result is UNKNOWN, except for the NULL tests. *)
Definition text_test (t : string -> bool) (x : cell) : option bool := match x with XStr s => Some (t s) | _ => None end.
Definition meaning (f : form) (x : cell) : option bool :=
  match f with
  | WNull => Some (match x with XNull => true | _ => false end)
  | WNotNull => Some (match x with XNull => false | _ => true end)
  | WBool b => match x with XBool a => Some (Bool.eqb a b) | _ => None end
  | WCmp c _ q => match x with XNum a => Some (of_order c (Qcompare a q)) | _ => None end
  | WEq w => text_test (fun s => String.eqb s w) x
  | WNe w => text_test (fun s => negb (String.eqb s w)) x
  | WContains w => text_test (fun s => contains (lower w) (lower s)) x
  | WStarts w => text_test (fun s => starts_with (lower w) (lower s)) x
  | WEnds w => text_test (fun s => ends_in (lower w) (lower s)) x
  | WNotContains w => text_test (fun s => negb (contains (lower w) (lower s))) x
  | WNotStarts w => text_test (fun s => negb (starts_with (lower w) (lower s))) x
  | WNotEnds w => text_test (fun s => negb (ends_in (lower w) (lower s))) x
  | WIn ws => text_test (fun s => existsb (String.eqb s) ws) x
  | WNotIn ws => text_test (fun s => negb (existsb (String.eqb s) ws)) x
  | WAfter _ t => match x with XTime a => Some (t <=? a) | _ => None end
  | WBefore _ t => match x with XTime a => Some (a <=? t) | _ => None end
  | WOn _ t => match x with XTime a => Some (a =? t) | _ => None end
  | WNotOn _ t => match x with XTime a => Some (negb (a =? t)) | _ => None end
  end.

(** ** Side conditions on the texts, over the whole written value *)
Definition interval_words : list string := ["unknown"; "day"; "week"; "month"; "quarter"; "year"].
Definition no_dates (s : string) : Prop := contains " until " s = false /\ forall w, In w interval_words -> contains w s = false.
(** the text before the first space *)
Fixpoint first_word (s : string) : string :=
  match s with EmptyString => "" | String c r => if Ascii.eqb c " " then "" else String c (first_word r) end.
Definition no_keyword (s : string) : Prop := ~ In (first_word s) ["after"; "before"; "on"; "not"].
Definition one_item (s : string) : Prop := contains ", " s = false.
Definition head_ok (s : string) : Prop := exists c r, s = String c r /\ has_char c "=<>-%!" = false.
Definition no_wild (s : string) : Prop := has_char "%" s = false /\ has_char "_" s = false.
Definition reserved : list string := ["NULL"; "TRUE"; "FALSE"].
Definition trimmed (s : string) : Prop := strip s = s /\ s <> "".

Definition admissible (num : string -> res Q) (f : form) : Prop :=
  no_dates (write f) /\
  match f with
  | WNull | WNotNull | WBool _ => True
  | WCmp c d q => num d = Ok q /\ one_item (write f) /\ head_is (fun x => has_char x "=>") d = false
  | WEq w => head_ok w /\ one_item w /\ no_keyword w /\ ~ In w reserved /\ has_char "%" w = false
  | WNe w => one_item (write f) /\ w <> "NULL" /\ w <> "" /\ has_char "%" w = false
  | WContains w | WEnds w | WNotContains w | WNotEnds w => no_wild w /\ one_item (write f) /\ w <> ""
  | WStarts w => no_wild w /\ one_item (write f) /\ head_ok w /\ no_keyword (write f)
  | WNotStarts w => no_wild w /\ one_item (write f) /\ w <> ""
  | WIn ws => (2 <= List.length ws)%nat /\ (forall w, In w ws -> trimmed w /\ one_item w /\ head_is (fun c => Ascii.eqb c "-") w = false) /\
              no_keyword (write f)
  | WNotIn ws => (2 <= List.length ws)%nat /\ (forall w, In w ws -> trimmed w /\ one_item w)
  | WAfter d t | WBefore d t | WOn d t | WNotOn d t => parse_date_string d = Ok t /\ has_char " " d = false
  end.
