(** How a text of SQL is read: which operator applies to what (the precedence of SQL's operators), and what a field
    written with references means.  Independent of how the texts are produced. *)
From Coq Require Import List String Bool Arith ZArith Lia.
From Verif Require Import PyBase Prec_Model.
Import ListNotations.
Local Open Scope string_scope.
Local Open Scope list_scope.
Local Open Scope nat_scope.

Inductive expr :=
  | EAtom (s : string) | ERef (x : string) | EBin (o : op) (a b : expr) | ENot (a : expr)
  | ECall (f : string) (a : expr) | ECase (c a : expr).

(** OR binds least, then AND, NOT (3), comparisons, sums, products; operators of one level group to the left *)
Definition prec (o : op) : nat :=
  match o with OOr => 1 | OAnd => 2 | OCmp _ => 4 | OAdd _ => 5 | OMul _ => 6 end.

(** [R lv n ts e]: the text reads as [e], all its operators outside brackets binding at least as tightly as level [n];
    a reference counts as a text of the level [lv] gives it *)
Inductive R (lv : string -> nat) : nat -> list tok -> expr -> Prop :=
  | R_atom s : R lv 7 [TAtom s] (EAtom s)
  | R_ref x : lv x <= 7 -> R lv (lv x) [TRef x] (ERef x)
  | R_paren ts e : R lv 0 ts e -> R lv 7 (TOpen :: ts ++ [TClose]) e
  | R_call f ts e : R lv 0 ts e -> R lv 7 (TCall f :: ts ++ [TClose]) (ECall f e)
  | R_case c ec s es : R lv 0 c ec -> R lv 0 s es -> R lv 7 (TCase :: c ++ TThen :: s ++ [TEnd]) (ECase ec es)
  | R_not ts e : R lv 3 ts e -> R lv 3 (TNot :: ts) (ENot e)
  | R_bin o l a r b : R lv (prec o) l a -> R lv (S (prec o)) r b -> R lv (prec o) (l ++ TOp o :: r) (EBin o a b)
  | R_weak n ts e : R lv (S n) ts e -> R lv n ts e.
(** A text read by itself, its references being names *)
Definition reads (ts : list tok) (e : expr) : Prop := R (fun _ => 7) 0 ts e.

(** The references of an expression replaced by expressions *)
Inductive inst (M : string -> expr -> Prop) : expr -> expr -> Prop :=
  | i_atom s : inst M (EAtom s) (EAtom s)
  | i_ref x e : M x e -> inst M (ERef x) e
  | i_bin o a b a' b' : inst M a a' -> inst M b b' -> inst M (EBin o a b) (EBin o a' b')
  | i_not a a' : inst M a a' -> inst M (ENot a) (ENot a')
  | i_call f a a' : inst M a a' -> inst M (ECall f a) (ECall f a')
  | i_case c a c' a' : inst M c c' -> inst M a a' -> inst M (ECase c a) (ECase c' a').

(** What a field means: its own text, read, each reference in it standing for the meaning of the field referred to;
    an aggregate is its functions applied to that.  The number is how deep the references go. *)
Fixpoint means_to (p : string -> option fdef) (n : nat) (x : string) (e : expr) : Prop :=
  match n with
  | O => False
  | S n =>
      exists d e0 e1, p x = Some d /\ reads (f_sql d) e0 /\ inst (means_to p n) e0 e1 /\
        e = match f_kind d with KAgg fs => fold_right ECall e1 fs | _ => e1 end
  end.
Definition means (p : string -> option fdef) (x : string) (e : expr) : Prop := exists n, means_to p n x e.

(** What a condition on an expression means *)
Definition cond_means (c : cond) (e : expr) : expr :=
  match c with
  | CCmp o v => EBin (OCmp o) e (EAtom v)
  | CLower o v => EBin (OCmp o) (ECall "LOWER" e) (ECall "LOWER" (EAtom v))
  | CTrue => e
  | CFalse => ENot e
  end.
(** All of them hold *)
Definition all_mean (first : expr) (rest : list expr) : expr := fold_left (EBin OAnd) rest first.

(** The value of an expression on one row, over integers: [row] gives the atoms, [fn] the functions *)
Definition b2z (b : bool) : Z := if b then 1%Z else 0%Z.
Definition truth (z : Z) : bool := negb (Z.eqb z 0).
Definition apply_op (o : op) (a b : Z) : Z :=
  match o with
  | OOr => b2z (truth a || truth b)
  | OAnd => b2z (truth a && truth b)
  | OCmp s => b2z (if String.eqb s "=" then Z.eqb a b else if String.eqb s ">" then Z.ltb b a else Z.ltb a b)
  | OAdd s => if String.eqb s "-" then (a - b)%Z else (a + b)%Z
  | OMul s => if String.eqb s "/" then (a / b)%Z else (a * b)%Z
  end.
Fixpoint value (row : string -> Z) (fn : string -> Z -> Z) (e : expr) : Z :=
  match e with
  | EAtom s | ERef s => row s
  | EBin o a b => apply_op o (value row fn a) (value row fn b)
  | ENot a => b2z (negb (truth (value row fn a)))
  | ECall f a => fn f (value row fn a)
  | ECase c a => if truth (value row fn c) then value row fn a else 0%Z
  end.
