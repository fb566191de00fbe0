(** Rows, sub queries and joins for non-additive measures, and which rows a window keeps. *)
From Coq Require Import List String ZArith Bool.
From Verif Require Import PyBase NonAdditive_Model.
Import ListNotations.
Local Open Scope list_scope.

Section Rows.
  Variable R : Type.
  (** value of a field's SQL in a row: None is NULL *)
  Variable col : fld -> R -> option Z.

  (** A row of a sub query: its columns *)
  Definition crow := list (string * option Z).
  Definition cell (c : crow) (a : string) : option Z := match assoc a c with Some v => v | None => None end.
  (** A column may be named in SQL if it is there exactly once *)
  Definition one_column (q : csql) (a : string) : Prop := count_occ string_dec (columns q) a = 1.

  Definition key (gs : list fld) (r : R) : list (option Z) := map (fun f => col f r) gs.
  Definition oz_dec (a b : option Z) : {a = b} + {a <> b}.
  Proof. decide equality. apply Z.eq_dec. Defined.
  Definition key_dec (a b : list (option Z)) : {a = b} + {a <> b} := list_eq_dec oz_dec a b.
  Definition keyb (a b : list (option Z)) : bool := if key_dec a b then true else false.

  (** MAX and MIN ignore NULL *)
  Definition better (c : choice) (a b : Z) : Z := match c with CMax => Z.max a b | CMin => Z.min a b end.
  Fixpoint pick (c : choice) (l : list (option Z)) : option Z :=
    match l with
    | [] => None
    | None :: l => pick c l
    | Some x :: l => match pick c l with None => Some x | Some y => Some (better c x y) end
    end.

  (** SELECT groups, MAX(date) FROM rows GROUP BY groups: one row per combination of values (NULLs are one value);
      without groups exactly one row *)
  Definition group_row (q : csql) (rows : list R) (k : list (option Z)) : crow :=
    combine (map col_alias (q_groups q)) k
    ++ [(q_temp q, pick (q_choice q) (map (col (q_date q)) (filter (fun r => keyb (key (q_groups q) r) k) rows)))].
  Definition table (q : csql) (rows : list R) : list crow :=
    match q_groups q with
    | [] => [group_row q rows []]
    | gs => map (group_row q rows) (nodup key_dec (map (key gs) rows))
    end.

  (** a = b is true only of two values *)
  Definition eq3 (a b : option Z) : bool := match a, b with Some x, Some y => Z.eqb x y | _, _ => false end.
  Definition holds (r : R) (c : crow) (j : jcond) : bool :=
    match j with
    | JTrue => true
    | JEq f a => eq3 (col f r) (cell c a)
    | JOrNull f a => eq3 (col f r) (cell c a) || match col f r, cell c a with None, None => true | _, _ => false end
    | JEqualNull f a => match col f r, cell c a with Some x, Some y => Z.eqb x y | None, None => true | _, _ => false end
    end.
  (** LEFT JOIN *)
  Definition left_join {A} (row : A -> R) (rows : list A) (t : list crow) (on : list jcond) : list (A * option crow) :=
    flat_map (fun a => match filter (fun c => forallb (holds (row a) c) on) t with
                       | [] => [(a, None)]
                       | l => map (fun c => (a, Some c)) l
                       end) rows.
  (** The joins of the sub queries one after the other: a row with the row of each sub query.  [source p]: the rows the
      sub query [p] reads. *)
  Fixpoint join_all (source : part -> list R) (ps : list part) (rows : list (R * list (string * option crow)))
    : list (R * list (string * option crow)) :=
    match ps with
    | [] => rows
    | p :: ps =>
        join_all source ps
          (map (fun x : (R * list (string * option crow)) * option crow => (fst (fst x), snd (fst x) ++ [(p_cte p, snd x)]))
               (left_join fst rows (table (p_sql p) (source p)) (p_on p)))
    end.
  (** The CASE of the measure: all its conditions hold of the row and the row joined to it *)
  Definition case_true (w : wcase) (x : R * list (string * option crow)) : bool :=
    match assoc (w_cte w) (snd x) with
    | Some (Some c) => forallb (fun fa : fld * string => eq3 (col (fst fa) (fst x)) (cell c (snd fa))) (w_conds w)
    | _ => false
    end.

  (** *** What the measure should aggregate: the rows dated last (first) among the rows with the same values of [gs] *)
  Definition at_least (c : choice) (d e : Z) : Prop := match c with CMax => (e <= d)%Z | CMin => (d <= e)%Z end.
  Definition same (gs : list fld) (r r' : R) : Prop := forall f, In f gs -> col f r = col f r'.
  Definition extreme (c : choice) (date : fld) (gs : list fld) (rows : list R) (r : R) : Prop :=
    exists d, col date r = Some d /\ (exists r', In r' rows /\ same gs r r' /\ col date r' = Some d)
      /\ forall r' e, In r' rows -> same gs r r' -> col date r' = Some e -> at_least c d e.
End Rows.
Arguments cell c a : simpl nomatch.
