(** Facts about lists used by several modules. *)
From Coq Require Import List.
Import ListNotations.

Lemma Forall2_length {A B} (R : A -> B -> Prop) l l' : Forall2 R l l' -> length l = length l'.
Proof. induction 1; simpl; congruence. Qed.
Lemma Forall2_In_l {A B} (R : A -> B -> Prop) l l' : Forall2 R l l' -> forall x, In x l -> exists y, In y l' /\ R x y.
Proof. induction 1 as [|a b l l' H F IH]; intros x I; [destruct I|]. destruct I as [<-|I]; [exists b; split; [now left|auto]|]. destruct (IH x I) as [y [J K]]. exists y. split; [now right|auto]. Qed.
Lemma Forall2_In_r {A B} (R : A -> B -> Prop) l l' : Forall2 R l l' -> forall y, In y l' -> exists x, In x l /\ R x y.
Proof. induction 1 as [|a b l l' H F IH]; intros y I; [destruct I|]. destruct I as [<-|I]; [exists a; split; [now left|auto]|]. destruct (IH y I) as [x [J K]]. exists x. split; [now right|auto]. Qed.
Lemma Forall2_weaken {A B} (P Q : A -> B -> Prop) l m : (forall a b, P a b -> Q a b) -> Forall2 P l m -> Forall2 Q l m.
Proof. intros H F. induction F; constructor; auto. Qed.
