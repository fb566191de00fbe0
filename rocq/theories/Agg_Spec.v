(** Meaning of the aggregate expressions over a group of rows, and what the measures should return.
    Values are rational numbers; casts to floating point and decimal types are taken as exact. *)
From Coq Require Import QArith Qround.
From Verif Require Import PyBase PyStr JoinGraph_Model Rel_Spec PySort Agg_Model.
Local Open Scope string_scope.
Local Open Scope list_scope.
Local Open Scope nat_scope.

(** A row as the measure sees it: the value of its sql and of its (distinct) key *)
Record arow := ARow { a_val : option Q; a_key : option string }.

Definition somes {A B} (f : A -> option B) (l : list A) : list B :=
  flat_map (fun x => match f x with Some y => [y] | None => [] end) l.
Definition qsum (l : list Q) : Q := fold_right Qplus 0%Q l.
Definition zsum (l : list Z) : Z := fold_right Z.add 0%Z l.
Definition million : Z := 1000000.
(** FLOOR(COALESCE(v, 0) * 1000000) *)
Definition micros (v : option Q) : Z :=
  Qfloor (Qmult (match v with Some q => q | None => 0%Q end) (inject_Z million)).
Definition q_dec (a b : Q) : {a = b} + {a <> b}.
Proof. decide equality; [apply Pos.eq_dec | apply Z.eq_dec]. Defined.
Definition qlen {A} (l : list A) : Q := inject_Z (Z.of_nat (List.length l)).
(** the distinct rationals of a list *)
Definition qdistinct (l : list Q) : list Q := nodup q_dec (map Qred l).
Definition qpick (better : Q -> Q -> bool) (l : list Q) : option Q :=
  match l with [] => None | x :: r => Some (fold_left (fun m y => if better y m then y else m) r x) end.
Definition qmedian (l : list Q) : option Q :=
  match isort Qle_bool l with
  | [] => None
  | s => let n := List.length s in
         Some (Qdiv (Qplus (nth (Nat.div2 (n - 1)) s 0%Q) (nth (Nat.div2 n) s 0%Q)) (inject_Z 2))
  end.

Section Eval.
  Variable hash : sym -> string -> Z.

  Definition eval_key (k : kx) (r : arow) : option string :=
    match k with
    | KRaw _ => a_key r
    | KIfNotNull _ _ => match a_val r with Some _ => a_key r | None => None end
    end.
  Fixpoint eval_num (n : nx) (r : arow) : option Z :=
    match n with
    | NAdjusted _ _ => Some (micros (a_val r))
    | NHash d _ => match a_key r with Some k => Some (hash d k) | None => None end
    | NAdd a b => match eval_num a r, eval_num b r with Some x, Some y => Some (x + y)%Z | _, _ => None end
    end.
  Fixpoint eval_agg (a : ax) (rows : list arow) : option Q :=
    match a with
    | ASum _ => match somes a_val rows with [] => None | l => Some (qsum l) end
    | ACount _ => Some (qlen (somes a_val rows))
    | AAvg _ => match somes a_val rows with [] => None | l => Some (Qdiv (qsum l) (qlen l)) end
    | AMax _ => qpick (fun y m => negb (Qle_bool y m)) (somes a_val rows)
    | AMin _ => qpick (fun y m => negb (Qle_bool m y)) (somes a_val rows)
    | AMedian _ => qmedian (somes a_val rows)
    | ACountDistinctVal _ => Some (qlen (qdistinct (somes a_val rows)))
    | ACountDistinctKey k => Some (qlen (nodup string_dec (somes (eval_key k) rows)))
    | ASumDistinct n => match nodup Z.eq_dec (somes (eval_num n) rows) with [] => None | l => Some (inject_Z (zsum l)) end
    | ASub a b => match eval_agg a rows, eval_agg b rows with Some x, Some y => Some (Qminus x y) | _, _ => None end
    | ABackOut _ a => match eval_agg a rows with Some x => Some (Qdiv x (inject_Z million)) | None => Some 0%Q end
    | ANullIfZero a => match eval_agg a rows with Some x => if Qeq_bool x 0%Q then None else Some x | None => None end
    | ADiv a b => match eval_agg a rows, eval_agg b rows with
                  | Some x, Some y => if Qeq_bool y 0%Q then None else Some (Qdiv x y)
                  | _, _ => None
                  end
    end.
End Eval.

(** Equality of nullable numbers; [same_or_zero] does not tell NULL from 0 *)
Definition qeq (a b : option Q) : Prop :=
  match a, b with Some x, Some y => Qeq x y | None, None => True | _, _ => False end.
Definition same_or_zero (a b : option Q) : Prop :=
  Qeq (match a with Some x => x | None => 0%Q end) (match b with Some x => x | None => 0%Q end).

(** The rows of the measure's own view present in a group: distinct keys with their values. *)
Definition own_table := list (string * option Q).
Definition own_vals (own : own_table) : list Q := somes snd own.

(** [rows] is some fan-out of [own]: each own row occurs, possibly several times, next to rows in
    which the view is absent (outer joins). *)
Definition fan_out (own : own_table) (rows : list arow) : Prop :=
  NoDup (map fst own) /\
  (forall r, In r rows -> match a_key r with Some k => In (k, a_val r) own | None => a_val r = None end) /\
  (forall k v, In (k, v) own -> In (ARow v (Some k)) rows).

(** What the symmetric sum relies on *)
Definition no_collision (hash : sym -> string -> Z) (d : sym) (own : own_table) : Prop :=
  (forall k v k' v', In (k, v) own -> In (k', v') own -> hash d k = hash d k' -> k = k') /\
  (forall k v k' v', In (k, v) own -> In (k', v') own ->
     (micros v + hash d k)%Z = (micros v' + hash d k')%Z -> k = k').
Definition whole_micros (own : own_table) : Prop :=
  forall k q, In (k, Some q) own -> exists z, Qeq (Qmult q (inject_Z million)) (inject_Z z).

(** A measure over its own view only *)
Definition own_value (t : mtype) (own : own_table) : option Q :=
  let l := own_vals own in
  match t with
  | TSum | TSumDistinct => match l with [] => None | _ => Some (qsum l) end
  | TCount => Some (qlen l)
  | TAverage | TAverageDistinct => match l with [] => None | _ => Some (Qdiv (qsum l) (qlen l)) end
  | TCountDistinct => Some (qlen (qdistinct l))
  | TMax => qpick (fun y m => negb (Qle_bool y m)) l
  | TMin => qpick (fun y m => negb (Qle_bool m y)) l
  | TMedian => qmedian l
  | TOther => None
  end.

(** The measure's view of joined rows, and the own rows they contain *)
Definition see (m : string) (key : nat -> option string) (val : nat -> option Q) (c : crow) : arow :=
  match assoc m c with Some r => ARow (val r) (key r) | None => ARow None None end.
Definition own_of (m : string) (key : nat -> option string) (val : nat -> option Q) (rows : list crow) : own_table :=
  somes (fun r => match key r with Some k => Some (k, val r) | None => None end) (nodup Nat.eq_dec (occ m rows)).
