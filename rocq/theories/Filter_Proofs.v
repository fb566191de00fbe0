From Coq Require Import QArith.
From Verif Require Import PyBase PyStr PyReplace PyRx PyDate Core_Model Filter_Model Filter_Spec.
Local Open Scope string_scope.
Local Open Scope list_scope.
Local Open Scope nat_scope.

(** ** LIKE *)
Lemma like_pct p s : like (String "%" p) s = like p s || match s with EmptyString => false | String _ r => like (String "%" p) r end.
Proof. destruct s; reflexivity. Qed.
Lemma like_lit w : no_wild w -> forall p s, like (w ++ p) s = match strip_prefix w s with Some r => like p r | None => false end.
Proof.
  induction w as [|c w IH]; intros [N1 N2] p s; [reflexivity|].
  simpl in N1, N2. apply orb_false_iff in N1. apply orb_false_iff in N2.
  destruct N1 as [N1 N1']. destruct N2 as [N2 N2']. simpl append.
  change (like (String c (w ++ p)) s) with
    (if Ascii.eqb c "%" then (fix any (s : string) : bool := like (w ++ p) s || match s with EmptyString => false | String _ r => any r end) s
     else match s with EmptyString => false | String d r => (Ascii.eqb c "_" || Ascii.eqb c d) && like (w ++ p) r end).
  rewrite N1, N2. destruct s as [|d r]; [reflexivity|]. simpl orb. simpl strip_prefix.
  destruct (Ascii.eqb c d); [|reflexivity]. simpl. apply IH. split; auto.
Qed.
Lemma like_any s : like "%" s = true.
Proof. induction s as [|c s IH]; [reflexivity|]. rewrite like_pct. rewrite IH. apply orb_true_r. Qed.
Lemma like_starts w s : no_wild w -> like (w ++ "%") s = starts_with w s.
Proof. intros N. rewrite like_lit by auto. unfold starts_with. destruct (strip_prefix w s); auto. apply like_any. Qed.
Lemma like_exact w s : no_wild w -> like w s = String.eqb w s.
Proof.
  intros N. rewrite <- (append_nil_r w) at 1. rewrite like_lit by auto. destruct (strip_prefix w s) as [r|] eqn:E.
  - apply strip_prefix_some in E. subst. simpl. destruct (String.eqb r "") eqn:R.
    + apply String.eqb_eq in R. subst. rewrite append_nil_r, String.eqb_refl. reflexivity.
    + symmetry. apply String.eqb_neq. apply String.eqb_neq in R. intros H. apply R.
      apply (append_inj_l w). rewrite <- H, append_nil_r. reflexivity.
  - symmetry. apply String.eqb_neq. intros <-. pose proof (strip_prefix_app w "") as H. rewrite append_nil_r in H. congruence.
Qed.
Lemma like_contains w s : no_wild w -> like (String "%" (w ++ "%")) s = contains w s.
Proof.
  intros N. induction s as [|c s IH]; rewrite like_pct, like_starts by auto; [reflexivity|]. rewrite IH. reflexivity.
Qed.
Lemma like_ends w s : no_wild w -> like (String "%" w) s = ends_in w s.
Proof.
  intros N. induction s as [|c s IH]; rewrite like_pct, like_exact by auto; [reflexivity|]. rewrite IH. reflexivity.
Qed.
Lemma lower_char_fix c : (c = "%"%char \/ c = "_"%char) -> forall a, Ascii.eqb (lower_ascii a) c = Ascii.eqb a c.
Proof. intros [-> | ->] [[] [] [] [] [] [] [] []]; reflexivity. Qed.
Lemma has_char_lower c s : (c = "%"%char \/ c = "_"%char) -> has_char c (lower s) = has_char c s.
Proof. intros C. induction s as [|a s IH]; simpl; auto. rewrite lower_char_fix, IH; auto. Qed.
Lemma no_wild_lower w : no_wild w -> no_wild (lower w).
Proof. intros [A B]. split; rewrite has_char_lower; auto. Qed.

(** ** Splitting *)
Lemma split_fuel_enough sep : sep <> "" -> forall f f' s,
  String.length s < f -> String.length s < f' -> split_fuel f sep s = split_fuel f' sep s.
Proof.
  intros N. induction f as [|f IH]; intros [|f'] s L L'; try lia. simpl.
  destruct (strip_prefix sep s) as [r|] eqn:E.
  - apply strip_prefix_length in E. assert (0 < String.length sep) by (destruct sep; [congruence|simpl; lia]).
    f_equal. apply IH; lia.
  - destruct s as [|a s]; auto. simpl in L, L'. rewrite (IH f' s); auto; lia.
Qed.
Lemma split_unfold sep s : sep <> "" ->
  split_str sep s =
  match strip_prefix sep s with
  | Some r => "" :: split_str sep r
  | None => match s with
            | EmptyString => [""]
            | String a r => match split_str sep r with x :: l => String a x :: l | [] => [String a ""] end
            end
  end.
Proof.
  intros N. unfold split_str at 1. cbn [split_fuel]. destruct (strip_prefix sep s) as [r|] eqn:E.
  - f_equal. apply split_fuel_enough; auto; try lia. apply strip_prefix_length in E.
    assert (0 < String.length sep) by (destruct sep; [congruence|simpl; lia]). lia.
  - destruct s as [|a s]; auto.
Qed.
Lemma split_nonempty sep s : split_str sep s <> [].
Proof.
  unfold split_str. generalize (S (String.length s)). intros f. revert s. induction f as [|f IH]; intros s; simpl; [discriminate|].
  destruct (strip_prefix sep s); [discriminate|]. destruct s as [|a s]; [discriminate|].
  destruct (split_fuel f sep s); discriminate.
Qed.
Lemma split_single sep s : sep <> "" -> contains sep s = false -> split_str sep s = [s].
Proof.
  intros N. induction s as [|a s IH]; intros C; rewrite split_unfold by auto.
  - simpl in C. unfold starts_with in C. destruct (strip_prefix sep ""); [discriminate|reflexivity].
  - simpl in C. apply orb_false_iff in C. destruct C as [C1 C2]. unfold starts_with in C1.
    destruct (strip_prefix sep (String a s)); [discriminate|]. rewrite IH by auto. reflexivity.
Qed.
(** No occurrence of the separator starts inside [p] when it is followed by the separator *)
Definition fresh (sep p : string) : Prop := forall q c q', p = (q ++ String c q')%string -> forall r, strip_prefix sep (String c q' ++ sep ++ r) = None.
Lemma split_app sep p r : sep <> "" -> fresh sep p -> split_str sep (p ++ sep ++ r) = p :: split_str sep r.
Proof.
  intros N. induction p as [|c p IH]; intros F; rewrite split_unfold by auto.
  - simpl append at 1. rewrite strip_prefix_app. reflexivity.
  - rewrite (F "" c p eq_refl r). change (String c p ++ sep ++ r)%string with (String c (p ++ sep ++ r))%string. cbn iota. rewrite IH; auto. intros q d q' E r'. apply (F (String c q) d q'). simpl. f_equal. auto.
Qed.
Lemma fresh_two a b p : a <> b -> contains (String a (String b "")) p = false -> fresh (String a (String b "")) p.
Proof.
  intros N C q c q' -> r.
  assert (C' : contains (String a (String b "")) (String c q') = false).
  { destruct (contains (String a (String b "")) (String c q')) eqn:E; auto. rewrite (contains_right _ q _ E) in C. discriminate. }
  simpl in C'. apply orb_false_iff in C'. destruct C' as [C' _]. unfold starts_with in C'. simpl in *.
  destruct (Ascii.eqb a c); auto. destruct q' as [|d q']; simpl in *.
  - destruct (Ascii.eqb b a) eqn:E; auto. apply Ascii.eqb_eq in E. congruence.
  - destruct (Ascii.eqb b d); auto. discriminate.
Qed.
Lemma split_join a b ws : a <> b -> (forall w, In w ws -> contains (String a (String b "")) w = false) -> ws <> [] ->
  split_str (String a (String b "")) (join_with (String a (String b "")) ws) = ws.
Proof.
  intros N H E. induction ws as [|w ws IH]; [congruence|]. destruct ws as [|w' ws].
  - simpl. apply split_single; [discriminate|]. apply H. left; auto.
  - change (join_with (String a (String b "")) (w :: w' :: ws)) with (w ++ String a (String b "") ++ join_with (String a (String b "")) (w' :: ws))%string.
    rewrite split_app; [|discriminate|apply fresh_two; auto; apply H; left; auto].
    f_equal. apply IH; [|discriminate]. intros x X. apply H. right; auto.
Qed.
Lemma split_str_char c s : split_str (String c "") s = split_char c s.
Proof.
  induction s as [|a s IH]; rewrite split_unfold by discriminate; [reflexivity|]. simpl strip_prefix. simpl split_char.
  rewrite (Ascii.eqb_sym a c). destruct (Ascii.eqb c a); rewrite IH; [reflexivity|]. destruct (split_char c s); reflexivity.
Qed.
Lemma first_word_eq s : hd "" (split_str " " s) = first_word s.
Proof.
  rewrite split_str_char. induction s as [|a s IH]; [reflexivity|]. simpl.
  destruct (Ascii.eqb a " "); [reflexivity|]. rewrite <- IH. destruct (split_char " " s) eqn:E; [|reflexivity].
  pose proof (split_char_length " " s) as L. rewrite E in L. discriminate.
Qed.
Lemma two_words s : join_with " " (firstn 2 (split_str " " s)) = "not on" -> first_word s = "not".
Proof.
  rewrite <- first_word_eq, split_str_char. pose proof (split_char_pieces " " s) as P.
  destruct (split_char " " s) as [|a [|b l]]; simpl; try discriminate.
  - intros ->. specialize (P "not on" (or_introl eq_refl)). discriminate.
  - intros E. change (a ++ String " " b = "not" ++ String " " "on")%string in E.
    apply (sep_inj " ") in E; [tauto| |reflexivity]. apply P. left; auto.
Qed.
Lemma no_keyword_test s : no_keyword s ->
  mem (hd "" (split_str " " s)) ["after"; "before"; "on"] || String.eqb (join_with " " (firstn 2 (split_str " " s))) "not on" = false.
Proof.
  intros K. rewrite first_word_eq. apply orb_false_iff. split.
  - apply mem_false. intros I. apply K. simpl in *. tauto.
  - apply String.eqb_neq. intros E. apply two_words in E. apply K. rewrite E. simpl. tauto.
Qed.
Lemma one_item_test s : one_item s -> Nat.ltb 1 (List.length (split_str ", " s)) = false.
Proof. intros O. rewrite split_single; [reflexivity|discriminate|auto]. Qed.

(** ** No date condition *)
Lemma no_intervals s : (forall w, In w interval_words -> contains w s = false) -> forall l, In l all_intervals -> contains l s = false.
Proof.
  intros H l L. simpl in L.
  assert (P : forall w t, In w interval_words -> contains (w ++ t) s = false).
  { intros w t W. destruct (contains (w ++ t) s) eqn:E; auto. apply contains_spec in E. destruct E as [a [b E]].
    assert (C : contains w s = true) by (apply contains_spec; exists a, (t ++ b)%string; rewrite E, append_assoc; reflexivity).
    rewrite H in C by auto. discriminate. }
  repeat (destruct L as [<-|L];
    [first [apply (P "unknown" ""); simpl; tauto | apply (P "unknown" "s"); simpl; tauto | apply (P "day" ""); simpl; tauto | apply (P "day" "s"); simpl; tauto
           | apply (P "week" ""); simpl; tauto | apply (P "week" "s"); simpl; tauto | apply (P "month" ""); simpl; tauto | apply (P "month" "s"); simpl; tauto
           | apply (P "quarter" ""); simpl; tauto | apply (P "quarter" "s"); simpl; tauto | apply (P "year" ""); simpl; tauto | apply (P "year" "s"); simpl; tauto]|]).
  destruct L.
Qed.
Lemma parse_simple_none now g s : (forall w, In w interval_words -> contains w s = false) -> parse_simple now g s = Ok None.
Proof.
  intros H. pose proof (no_intervals s H) as N. unfold parse_simple.
  assert (T : String.eqb s "today" = false).
  { apply String.eqb_neq. intros ->. specialize (H "day"). simpl in H. discriminate H. tauto. }
  assert (Y : String.eqb s "yesterday" = false).
  { apply String.eqb_neq. intros ->. specialize (H "day"). simpl in H. discriminate H. tauto. }
  rewrite T, Y.
  assert (A : parse_ago_for now g s = Ok None).
  { unfold parse_ago_for. rewrite (rsearch_none rx_ago_for s all_intervals); [reflexivity| |auto]. simpl. tauto. }
  assert (B : parse_modifier now g s = Ok None).
  { unfold parse_modifier. rewrite (rsearch_none rx_modifier s all_intervals); [reflexivity| |auto]. simpl. tauto. }
  assert (C : parse_n_interval now g s = Ok None).
  { unfold parse_n_interval. rewrite (rsearch_none rx_n_interval s all_intervals); [reflexivity| |auto]. simpl. tauto. }
  rewrite A. cbn [bind]. rewrite B. cbn [bind]. apply C.
Qed.
Lemma no_date_condition now g s : no_dates s -> parse_date_condition now g (VStr s) = Ok None.
Proof.
  intros [U H]. unfold parse_date_condition. cbn [py_str]. rewrite U. apply parse_simple_none. auto.
Qed.
Lemma filter_dict_plain num now g w s c : s <> "" -> no_dates s -> clean_value num (VStr s) None = Ok c ->
  filter_dict num now g (VStr s) w = (Ok c, default_globals).
Proof.
  intros N D C. unfold filter_dict. cbn [py_str]. assert (E : String.eqb s "" = false) by (apply String.eqb_neq; auto). rewrite E.
  rewrite no_date_condition by auto. rewrite C. reflexivity.
Qed.

(** ** Slices *)
Lemma drop_last_app s c : drop_last (s ++ String c "") = s.
Proof. induction s as [|a s IH]; [reflexivity|]. simpl. rewrite IH. destruct (s ++ String c "")%string eqn:E; auto. destruct s; discriminate. Qed.
Lemma last_char_app s c : last_char (s ++ String c "") = Some c.
Proof. induction s as [|a s IH]; [reflexivity|]. simpl. rewrite IH. destruct (s ++ String c "")%string eqn:E; auto. destruct s; discriminate. Qed.
Lemma last_is_app c s : last_is c (s ++ String c "") = true.
Proof. unfold last_is. rewrite last_char_app. apply Ascii.eqb_refl. Qed.
Lemma last_is_no c s : has_char c s = false -> last_is c s = false.
Proof.
  unfold last_is. induction s as [|a s IH]; [reflexivity|]. simpl. intros H. apply orb_false_iff in H. destruct H as [H1 H2].
  destruct s; auto.
Qed.
Lemma strip_dash w : strip w = w -> forall c, drop 1 (String c w) = w.
Proof. reflexivity. Qed.

(** ** The forms *)
Lemma last_is_cons c a w : w <> "" -> last_is c (String a w) = last_is c w.
Proof. intros N. unfold last_is. destruct w; [congruence|reflexivity]. Qed.
Lemma keyword_head c r : has_char c "abon" = false -> no_keyword (String c r).
Proof.
  intros H I. simpl in I. destruct (Ascii.eqb c " "); simpl in I.
  - intuition discriminate.
  - simpl in H. repeat (apply orb_false_iff in H; destruct H as [?H H]).
    destruct I as [I|[I|[I|[I|[]]]]]; injection I as <- _; discriminate.
Qed.
Lemma clean_value_string num s c : ~ In s ["NULL"; "-NULL"; "TRUE"; "FALSE"] -> clean_string num s = Ok c ->
  clean_value num (VStr s) None = Ok [c].
Proof.
  intros N C. unfold clean_value. simpl in N.
  assert (String.eqb s "NULL" = false) as -> by (apply String.eqb_neq; intros E; apply N; auto).
  assert (String.eqb s "-NULL" = false) as -> by (apply String.eqb_neq; intros E; apply N; auto).
  assert (String.eqb s "TRUE" = false) as -> by (apply String.eqb_neq; intros E; apply N; auto).
  assert (String.eqb s "FALSE" = false) as -> by (apply String.eqb_neq; intros E; apply N; rewrite E; tauto).
  rewrite C. reflexivity.
Qed.
(** A single item that is not a keyword form *)
Definition clean_item (num : string -> res Q) (s : string) : res cond :=
  if String.eqb (take 2 s) "<=" then q <- num (drop 2 s) ;; Ok (ELessOrEqual, CNum q)
    else if String.eqb (take 2 s) ">=" then q <- num (drop 2 s) ;; Ok (EGreaterOrEqual, CNum q)
    else if String.eqb (take 2 s) "<>" || String.eqb (take 2 s) "!=" then q <- num (drop 2 s) ;; Ok (ENotEqualTo, CNum q)
    else
      c <- char_at 0 s ;;
      if Ascii.eqb c "=" then q <- num (drop 1 s) ;; Ok (EEqualTo, CNum q)
      else if Ascii.eqb c ">" then q <- num (drop 1 s) ;; Ok (EGreaterThan, CNum q)
      else if Ascii.eqb c "<" then q <- num (drop 1 s) ;; Ok (ELessThan, CNum q)
      else if Ascii.eqb c "-" then
        d <- char_at 1 s ;;
        if Ascii.eqb d "%" && last_is "%" s then Ok (EDoesNotContainCI, CStr (drop_last (drop 2 s)))
        else if Ascii.eqb d "%" then Ok (EDoesNotEndWithCI, CStr (drop 2 s))
        else if last_is "%" s then Ok (EDoesNotStartWithCI, CStr (drop_last (drop 1 s)))
        else Ok (ENotEqualTo, CStr (drop 1 s))
      else
        if Ascii.eqb c "%" && last_is "%" s then Ok (EContainsCI, CStr (drop_last (drop 1 s)))
        else if Ascii.eqb c "%" then Ok (EEndsWithCI, CStr (drop 1 s))
        else if last_is "%" s then Ok (EStartsWithCI, CStr (drop_last s))
        else Ok (EEqualTo, CStr s).
Lemma clean_string_item num s : no_keyword s -> one_item s -> clean_string num s = clean_item num s.
Proof. intros K O. unfold clean_string. rewrite no_keyword_test, one_item_test by auto. reflexivity. Qed.

Lemma clean_dash num c w : (c = "%"%char -> False) -> clean_item num (String "-" (String c w)) =
  if last_is "%" (String c w) then Ok (EDoesNotStartWithCI, CStr (drop_last (String c w))) else Ok (ENotEqualTo, CStr (String c w)).
Proof.
  intros N. unfold clean_item. cbn. destruct (Ascii.eqb c "%") eqn:E; [apply Ascii.eqb_eq in E; tauto|]. cbn.
  rewrite last_is_cons by discriminate. reflexivity.
Qed.
Lemma clean_plain num w : head_ok w -> clean_item num w =
  if last_is "%" w then Ok (EStartsWithCI, CStr (drop_last w)) else Ok (EEqualTo, CStr w).
Proof.
  intros [c [r [-> H]]]. cbn [has_char] in H. repeat (apply orb_false_iff in H; destruct H as [?H H]).
  rewrite Ascii.eqb_sym in H0, H1, H2, H3, H4, H5. unfold clean_item.
  assert (T : forall a b, Ascii.eqb c a = false -> String.eqb (take 2 (String c r)) (String a (String b "")) = false).
  { intros a b E. simpl. destruct r; simpl; rewrite E; reflexivity. }
  rewrite !T by auto. cbn [orb]. change (char_at 0 (String c r)) with (Ok c). cbn [bind]. rewrite H0, H1, H2, H3, H4. reflexivity.
Qed.

Definition parsed (num : string -> res Q) (f : form) : Prop :=
  write f <> "" /\ exists c k, clean_value num (VStr (write f)) None = Ok [c] /\ criterion num false (fst c) (snd c) = Ok k /\
  forall x, eval_crit k x = meaning f x.
Ltac not_reserved := let X := fresh in simpl; intros [X|[X|[X|[X|[]]]]]; discriminate X.
Lemma take2_no a r a' b : Ascii.eqb a a' = false -> String.eqb (take 2 (String a r)) (String a' (String b "")) = false.
Proof. intros E. destruct r as [|e r]; simpl; rewrite E; reflexivity. Qed.

Lemma form_const num f : f = WNull \/ f = WNotNull \/ (exists b, f = WBool b) -> parsed num f.
Proof.
  intros [->|[->|[b ->]]].
  - split; [discriminate|]. exists (EIsNull, CNone), KIsNull. split; [reflexivity|]. split; reflexivity.
  - split; [discriminate|]. exists (EIsNotNull, CNone), KNotNull. split; [reflexivity|]. split; reflexivity.
  - split; [destruct b; discriminate|]. exists (EEqualTo, CBool b), (KCmp CmpEq (CBool b)).
    split; [destruct b; reflexivity|]. split; [reflexivity|]. intros []; reflexivity.
Qed.
Definition expr_of (c : cmp) : fexpr :=
  match c with CmpLt => ELessThan | CmpLe => ELessOrEqual | CmpEq => EEqualTo | CmpNe => ENotEqualTo | CmpGe => EGreaterOrEqual | CmpGt => EGreaterThan end.
Lemma form_cmp num c d q : admissible num (WCmp c d q) -> parsed num (WCmp c d q).
Proof.
  intros [_ [N [O H]]]. split; [destruct c; discriminate|].
  exists (expr_of c, CNum q), (KCmp c (CNum q)). split; [|split; [destruct c; reflexivity|intros []; reflexivity]].
  apply clean_value_string; [destruct c; not_reserved|].
  rewrite clean_string_item; [|destruct c; apply keyword_head; reflexivity|auto].
  assert (T : forall a b, has_char b "=>" = true -> String.eqb (take 2 (String a d)) (String a (String b "")) = false).
  { intros a b B. destruct d as [|e d]; simpl; rewrite Ascii.eqb_refl; [reflexivity|]. unfold head_is in H.
    destruct (Ascii.eqb e b) eqn:E; [|reflexivity]. apply Ascii.eqb_eq in E. congruence. }
  assert (T' : forall a a' b, Ascii.eqb a a' = false -> String.eqb (take 2 (String a d)) (String a' (String b "")) = false).
  { intros a a' b E. destruct d as [|e d]; simpl; rewrite E; reflexivity. }
  destruct c; unfold clean_item, write, symbol; cbn [append].
  - rewrite (T "<"%char "="%char), (T "<"%char ">"%char), !T' by reflexivity. cbn. rewrite N. reflexivity.
  - cbn. rewrite N. reflexivity.
  - rewrite !T' by reflexivity. cbn. rewrite N. reflexivity.
  - cbn. rewrite N. reflexivity.
  - cbn. rewrite N. reflexivity.
  - rewrite (T ">"%char "="%char), !T' by reflexivity. cbn. rewrite N. reflexivity.
Qed.
Lemma text_cmp c w x : c = CmpEq \/ c = CmpNe -> compare_cell c x (CStr w) = text_test (fun s => if String.eqb s w then of_order c Eq else of_order c Lt) x.
Proof. intros [-> | ->]; destruct x; simpl; auto; destruct (String.eqb s w); reflexivity. Qed.
Lemma form_eq num w : admissible num (WEq w) -> parsed num (WEq w).
Proof.
  intros [_ [H [O [K [R P]]]]]. split; [destruct H as [c [r [-> _]]]; discriminate|].
  exists (EEqualTo, CStr w), (KCmp CmpEq (CStr w)). split; [|split; [reflexivity|]].
  - apply clean_value_string; simpl write.
    + destruct H as [c [r [-> H]]]. intros [E|[E|[E|[E|[]]]]].
      * apply R. left; auto.
      * injection E as <- <-. discriminate.
      * apply R. right; left; auto.
      * apply R. right; right; left; auto.
    + rewrite clean_string_item, clean_plain, last_is_no by auto. reflexivity.
  - intros []; reflexivity.
Qed.
Lemma form_ne num w : admissible num (WNe w) -> parsed num (WNe w).
Proof.
  intros [_ [O [R [E P]]]]. split; [discriminate|].
  exists (ENotEqualTo, CStr w), (KCmp CmpNe (CStr w)). split; [|split; [reflexivity|]].
  - apply clean_value_string; cbn [write] in *; cbn [append] in *.
    + intros [F|[F|[F|[F|[]]]]]; try discriminate. injection F as F. congruence.
    + rewrite clean_string_item; [|apply keyword_head; reflexivity|auto].
      destruct w as [|c w]; [congruence|]. rewrite clean_dash.
      * rewrite last_is_no by auto. reflexivity.
      * intros ->. discriminate.
  - intros []; reflexivity.
Qed.
Lemma like_fold_contains w s : no_wild w -> like (lower ("%" ++ w ++ "%")) (lower s) = contains (lower w) (lower s).
Proof.
  intros W. cbn [append]. change (lower (String "%" (w ++ "%"))) with (String "%" (lower (w ++ "%"))).
  rewrite lower_app. change (lower "%") with "%". apply like_contains. apply no_wild_lower; auto.
Qed.
Lemma like_fold_starts w s : no_wild w -> like (lower (w ++ "%")) (lower s) = starts_with (lower w) (lower s).
Proof. intros W. rewrite lower_app. change (lower "%") with "%". apply like_starts. apply no_wild_lower; auto. Qed.
Lemma like_fold_ends w s : no_wild w -> like (lower ("%" ++ w)) (lower s) = ends_in (lower w) (lower s).
Proof.
  intros W. cbn [append]. change (lower (String "%" w)) with (String "%" (lower w)). apply like_ends. apply no_wild_lower; auto.
Qed.
Lemma no_wild_last w : no_wild w -> last_is "%" w = false.
Proof. intros [W _]. apply last_is_no; auto. Qed.
Lemma clean_pct num w : clean_item num (String "%" w) =
  if last_is "%" (String "%" w) then Ok (EContainsCI, CStr (drop_last w)) else Ok (EEndsWithCI, CStr w).
Proof. unfold clean_item. rewrite !take2_no by reflexivity. cbn. destruct (last_is "%" (String "%" w)); reflexivity. Qed.
Lemma clean_dash_pct num w : clean_item num (String "-" (String "%" w)) =
  if last_is "%" (String "%" w) then Ok (EDoesNotContainCI, CStr (drop_last w)) else Ok (EDoesNotEndWithCI, CStr w).
Proof.
  unfold clean_item. rewrite !take2_no by reflexivity. cbn. rewrite last_is_cons by discriminate.
  destruct (last_is "%" (String "%" w)); reflexivity.
Qed.
Lemma app_last_nonempty w c : (w ++ String c "")%string <> "".
Proof. destruct w; discriminate. Qed.
Lemma form_like num f : admissible num f ->
  match f with WContains _ | WStarts _ | WEnds _ | WNotContains _ | WNotStarts _ | WNotEnds _ => True | _ => False end -> parsed num f.
Proof.
  intros [_ A] F. destruct f as [| | | | | |w|w|w|w|w|w| | | | | |]; try contradiction; clear F.
  - destruct A as [W [O E]]. split; [discriminate|].
    exists (EContainsCI, CStr w), (KLike true false ("%" ++ w ++ "%")). split; [|split; [reflexivity|]].
    + apply clean_value_string; [not_reserved|]. rewrite clean_string_item; [|apply keyword_head; reflexivity|auto].
      cbn [write append]. rewrite clean_pct, last_is_cons, last_is_app, drop_last_app by apply app_last_nonempty. reflexivity.
    + intros []; auto. cbn [eval_crit meaning text_test]. rewrite like_fold_contains by auto. reflexivity.
  - destruct A as [W [O [H K]]]. cbn [write] in *. split; [apply app_last_nonempty|].
    exists (EStartsWithCI, CStr w), (KLike true false (w ++ "%")). split; [|split; [reflexivity|]].
    + apply clean_value_string.
      * intros I. assert (L : last_is "%" (w ++ "%") = true) by apply last_is_app.
        repeat (destruct I as [I|I]; [cbn [write] in I; rewrite <- I in L; discriminate L|]). destruct I.
      * cbn [write]. rewrite clean_string_item by auto. rewrite clean_plain.
        -- rewrite last_is_app, drop_last_app. reflexivity.
        -- destruct H as [c [r [-> H]]]. exists c, (r ++ "%")%string. split; [reflexivity|auto].
    + intros []; auto. cbn [eval_crit meaning text_test]. rewrite like_fold_starts by auto. reflexivity.
  - destruct A as [W [O E]]. split; [discriminate|].
    exists (EEndsWithCI, CStr w), (KLike true false ("%" ++ w)). split; [|split; [reflexivity|]].
    + apply clean_value_string; [not_reserved|]. rewrite clean_string_item; [|apply keyword_head; reflexivity|auto].
      cbn [write append]. rewrite clean_pct, last_is_cons, no_wild_last by auto. reflexivity.
    + intros []; auto. cbn [eval_crit meaning text_test]. rewrite like_fold_ends by auto. reflexivity.
  - destruct A as [W [O E]]. split; [discriminate|].
    exists (EDoesNotContainCI, CStr w), (KLike true true ("%" ++ w ++ "%")). split; [|split; [reflexivity|]].
    + apply clean_value_string; [not_reserved|]. rewrite clean_string_item; [|apply keyword_head; reflexivity|auto].
      cbn [write append]. rewrite clean_dash_pct, last_is_cons, last_is_app, drop_last_app by apply app_last_nonempty. reflexivity.
    + intros []; auto. cbn [eval_crit meaning text_test]. rewrite like_fold_contains by auto. reflexivity.
  - destruct A as [W [O E]]. split; [discriminate|].
    exists (EDoesNotStartWithCI, CStr w), (KLike true true (w ++ "%")). split; [|split; [reflexivity|]].
    + assert (L : last_is "%" (write (WNotStarts w)) = true).
      { cbn [write append]. rewrite last_is_cons by apply app_last_nonempty. apply last_is_app. }
      apply clean_value_string.
      * intros I. repeat (destruct I as [I|I]; [rewrite <- I in L; discriminate L|]). destruct I.
      * rewrite clean_string_item; [|apply keyword_head; reflexivity|auto].
        cbn [write append] in *. destruct w as [|c w]; [congruence|]. cbn [append] in *. rewrite clean_dash.
        -- change (String c (w ++ "%")) with (String c w ++ String "%" "")%string. rewrite last_is_app, drop_last_app. reflexivity.
        -- intros ->. destruct W. discriminate.
    + intros []; auto. cbn [eval_crit meaning text_test]. rewrite like_fold_starts by auto. reflexivity.
  - destruct A as [W [O E]]. split; [discriminate|].
    exists (EDoesNotEndWithCI, CStr w), (KLike true true ("%" ++ w)). split; [|split; [reflexivity|]].
    + apply clean_value_string; [not_reserved|]. rewrite clean_string_item; [|apply keyword_head; reflexivity|auto].
      cbn [write append]. rewrite clean_dash_pct, last_is_cons, no_wild_last by auto. reflexivity.
    + intros []; auto. cbn [eval_crit meaning text_test]. rewrite like_fold_ends by auto. reflexivity.
Qed.
(** Lists *)
Lemma list_string s ws : (2 <= List.length ws)%nat -> split_str ", " s = ws -> no_keyword s -> forall num,
  clean_string num s = (a <- all_negated ws ;; if (a : bool) then Ok (EIsNotIn, CStrs (map (fun c => strip (drop 1 c)) ws))
      else b <- any_negated ws ;; if (b : bool) then Err QueryError else Ok (EIsIn, CStrs (map strip ws))).
Proof.
  intros L S K num. unfold clean_string. rewrite no_keyword_test by auto. rewrite S.
  assert (Nat.ltb 1 (List.length ws) = true) as -> by (apply Nat.ltb_lt; lia). reflexivity.
Qed.
Definition dashed (w : string) : bool := head_is (fun c => Ascii.eqb c "-") w.
Lemma all_negated_spec ws : (forall w, In w ws -> w <> "") -> all_negated ws = Ok (forallb dashed ws).
Proof.
  induction ws as [|w ws IH]; intros N; [reflexivity|]. destruct w as [|c w]; [destruct (N "" (or_introl eq_refl)); reflexivity|].
  simpl. change (char_at 0 (String c w)) with (Ok c). cbn [bind]. destruct (Ascii.eqb c "-"); simpl; auto. apply IH.
  intros x X. apply N. right; auto.
Qed.
Lemma any_negated_spec ws : (forall w, In w ws -> w <> "") -> any_negated ws = Ok (existsb dashed ws).
Proof.
  induction ws as [|w ws IH]; intros N; [reflexivity|]. destruct w as [|c w]; [destruct (N "" (or_introl eq_refl)); reflexivity|].
  simpl. change (char_at 0 (String c w)) with (Ok c). cbn [bind]. destruct (Ascii.eqb c "-"); simpl; auto. apply IH.
  intros x X. apply N. right; auto.
Qed.
Lemma map_strip_id ws : (forall w, In w ws -> trimmed w) -> map strip ws = ws.
Proof.
  induction ws as [|w ws IH]; intros T; [reflexivity|]. simpl. f_equal; [apply T; left; auto|]. apply IH. intros x X. apply T. right; auto.
Qed.
Lemma contains_join sep a b l : contains sep (join_with sep (a :: b :: l)) = true.
Proof. apply contains_spec. exists a, (join_with sep (b :: l)). reflexivity. Qed.
Lemma not_reserved_list ws : (2 <= List.length ws)%nat -> ~ In (join_with ", " ws) ["NULL"; "-NULL"; "TRUE"; "FALSE"].
Proof.
  intros L. destruct ws as [|a [|b l]]; try (simpl in L; lia).
  pose proof (contains_join ", " a b l) as C. intros [I|[I|[I|[I|[]]]]]; rewrite <- I in C; discriminate.
Qed.
Lemma form_in num ws : admissible num (WIn ws) -> parsed num (WIn ws).
Proof.
  intros [_ [L [H K]]]. assert (NE : ws <> []) by (destruct ws; [simpl in L; lia|discriminate]).
  split.
  - destruct ws as [|a [|b l]]; try (simpl in L; lia). intros E. pose proof (contains_join ", " a b l) as C. cbn [write] in E.
    rewrite E in C. discriminate.
  - exists (EIsIn, CStrs ws), (KIn (CStrs ws)). split; [|split; [reflexivity|intros []; reflexivity]].
    cbn [write] in *. apply clean_value_string; [apply not_reserved_list; auto|].
    rewrite (list_string _ ws); auto.
    + assert (NN : forall w, In w ws -> w <> "") by (intros w W; apply H; auto).
      rewrite all_negated_spec, any_negated_spec by auto. cbn [bind].
      assert (D : forall w, In w ws -> dashed w = false) by (intros w W; apply H; auto).
      assert (forallb dashed ws = false) as ->.
      { destruct ws as [|w ws]; [congruence|]. simpl. rewrite (D w); [reflexivity|left; auto]. }
      assert (existsb dashed ws = false) as ->.
      { destruct (existsb dashed ws) eqn:X; auto. apply existsb_exists in X. destruct X as [w [W X]]. rewrite D in X by auto. discriminate. }
      cbn [bind]. rewrite map_strip_id; [reflexivity|]. intros w W. apply H; auto.
    + apply split_join; auto; [discriminate|]. intros w W. apply H; auto.
Qed.
Lemma form_not_in num ws : admissible num (WNotIn ws) -> parsed num (WNotIn ws).
Proof.
  intros [_ [L H]]. cbn [write] in *. set (vs := map (fun w => ("-" ++ w)%string) ws).
  assert (L' : (2 <= List.length vs)%nat) by (unfold vs; rewrite map_length; auto).
  assert (NE : vs <> []) by (destruct vs; [simpl in L'; lia|discriminate]).
  split.
  - cbn [write]. fold vs. destruct vs as [|a [|b l]]; try (simpl in L'; lia). intros E. pose proof (contains_join ", " a b l) as C.
    rewrite E in C. discriminate.
  - exists (EIsNotIn, CStrs ws), (KNotIn (CStrs ws)). split; [|split; [reflexivity|intros []; reflexivity]].
    cbn [write]. fold vs. apply clean_value_string; [apply not_reserved_list; auto|].
    rewrite (list_string _ vs); auto.
    + assert (D : forall w, In w vs -> dashed w = true /\ w <> "").
      { intros w W. apply in_map_iff in W. destruct W as [x [<- _]]. split; [reflexivity|discriminate]. }
      rewrite all_negated_spec by (intros; apply D; auto). cbn [bind].
      assert (forallb dashed vs = true) as -> by (apply forallb_forall; intros; apply D; auto).
      unfold vs. rewrite map_map. cbn [append drop]. rewrite map_strip_id; [reflexivity|]. intros w W. apply H; auto.
    + apply split_join; auto; [discriminate|]. intros w W. apply in_map_iff in W. destruct W as [x [<- X]].
      destruct (H x X) as [_ O]. cbn. apply O.
    + destruct vs as [|v vs'] eqn:E; [congruence|]. assert (V : In v vs) by (rewrite E; left; auto).
      unfold vs in V. apply in_map_iff in V. destruct V as [x [<- _]].
      destruct vs'; apply keyword_head; reflexivity.
Qed.
Lemma form_date num f : admissible num f ->
  match f with WAfter _ _ | WBefore _ _ | WOn _ _ | WNotOn _ _ => True | _ => False end -> parsed num f.
Proof.
  intros [_ A] F.
  assert (G : forall d t (p : string) e, parse_date_string d = Ok t -> has_char " " d = false ->
     In (p, e) [("after ", EGreaterOrEqual); ("before ", ELessOrEqual); ("on ", EEqualTo); ("not on ", ENotEqualTo)] ->
     clean_value num (VStr (p ++ d)) None = Ok [(e, CTime t)]).
  { intros d t p e P N I. apply clean_value_string.
    - simpl in I. destruct I as [I|[I|[I|[I|[]]]]]; injection I as <- _; not_reserved.
    - unfold clean_string. rewrite split_str_char.
      simpl in I. destruct I as [I|[I|[I|[I|[]]]]]; injection I as <- <-; simpl split_char; rewrite (split_char_nochar " " d) by auto;
      cbn; rewrite P; reflexivity. }
  destruct f as [| | | | | | | | | | | | | |d t|d t|d t|d t]; try contradiction; clear F; destruct A as [P N];
    (split; [discriminate|]).
  - exists (EGreaterOrEqual, CTime t), (KCmp CmpGe (CTime t)). split; [apply G; simpl; auto|]. split; [reflexivity|].
    intros []; auto. cbn. unfold Z.leb. rewrite (Z.compare_antisym t t0). destruct (Z.compare t t0); reflexivity.
  - exists (ELessOrEqual, CTime t), (KCmp CmpLe (CTime t)). split; [apply G; simpl; auto|]. split; [reflexivity|].
    intros []; auto.
  - exists (EEqualTo, CTime t), (KCmp CmpEq (CTime t)). split; [apply G; simpl; auto|]. split; [reflexivity|].
    intros []; auto. cbn. f_equal. rewrite Z.eqb_compare. destruct (Z.compare t0 t); reflexivity.
  - exists (ENotEqualTo, CTime t), (KCmp CmpNe (CTime t)). split; [apply G; simpl; tauto|]. split; [reflexivity|].
    intros []; auto. cbn. f_equal. rewrite Z.eqb_compare. destruct (Z.compare t0 t); reflexivity.
Qed.
Lemma form_parsed num f : admissible num f -> parsed num f.
Proof.
  intros A. destruct f;
  [apply form_const; auto | apply form_const; auto | apply form_const; eauto | apply form_cmp; auto | apply form_eq; auto | apply form_ne; auto
  | apply form_like; auto | apply form_like; auto | apply form_like; auto | apply form_like; auto | apply form_like; auto | apply form_like; auto
  | apply form_in; auto | apply form_not_in; auto | apply form_date; auto | apply form_date; auto | apply form_date; auto | apply form_date; auto].
Qed.
