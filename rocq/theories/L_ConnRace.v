(** Schedules of threads inside _new_conn. *)
From Verif Require Import PyBase M_ConnRace.

Lemma nth_error_mid {A} (a b : list A) x : nth_error (a ++ x :: b) (length a) = Some x.
Proof. induction a; [reflexivity|exact IHa]. Qed.
Lemma set_nth_mid {A} (a b : list A) x y : set_nth (length a) y (a ++ x :: b) = a ++ y :: b.
Proof. induction a; [reflexivity|]. cbn [set_nth length app]. rewrite IHa. reflexivity. Qed.

(** every thread makes one step, in order; the thread positions all change alike *)
Lemma pass max num num' x y : (forall z, z = num \/ z = num' -> advance max z x = (num', y)) ->
  forall n m, (n = 0%nat -> num = num') -> race_run max {| r_num := num; r_pcs := repeat y m ++ repeat x n |} (seq m n)
  = {| r_num := num'; r_pcs := repeat y (m + n) |}.
Proof.
  intros A n. assert (B : forall n m z, z = num \/ z = num' -> (n = 0%nat -> z = num') ->
    race_run max {| r_num := z; r_pcs := repeat y m ++ repeat x n |} (seq m n) = {| r_num := num'; r_pcs := repeat y (m + n) |}).
  { clear n. induction n as [|n IH]; intros m z Hz H0.
    - cbn. rewrite app_nil_r, Nat.add_0_r. rewrite H0 by reflexivity. reflexivity.
    - cbn [seq repeat]. unfold race_run. cbn [fold_left].
      replace (race_step max {| r_num := z; r_pcs := repeat y m ++ x :: repeat x n |} m) with {| r_num := num'; r_pcs := repeat y (S m) ++ repeat x n |}.
      + specialize (IH (S m) num' (or_intror eq_refl) (fun _ => eq_refl)). unfold race_run in IH. rewrite IH. rewrite Nat.add_succ_r. reflexivity.
      + unfold race_step. cbn [r_pcs r_num]. pose proof (nth_error_mid (repeat y m) (repeat x n) x) as E. rewrite repeat_length in E. rewrite E.
        rewrite (A z Hz). pose proof (set_nth_mid (repeat y m) (repeat x n) x y) as E2. rewrite repeat_length in E2. rewrite E2.
        f_equal. change (repeat y (S m)) with (y :: repeat y m). rewrite repeat_cons, <- app_assoc. reflexivity. }
  intros m H0. apply B; [left; reflexivity|exact H0].
Qed.

Lemma race_app max s a b : race_run max s (a ++ b) = race_run max (race_run max s a) b.
Proof. apply fold_left_app. Qed.

Lemma race_all n max : (1 <= n)%nat -> 1 <= max -> exists schedule,
  race_run max (race_init n) schedule = {| r_num := 1; r_pcs := repeat Returned n |}.
Proof.
  intros Hn Hm. exists (seq 0 n ++ seq 0 n ++ seq 0 n ++ seq 0 n). rewrite !race_app. unfold race_init.
  change (repeat AtCheck n) with (repeat AtLoad 0 ++ repeat AtCheck n).
  rewrite (pass max 0 0 AtCheck AtLoad); [|intros z Hz; cbn; destruct (Z.leb_spec max z); [lia|f_equal; lia]|reflexivity].
  change (repeat AtLoad (0 + n)) with (repeat (AtStore 1) 0 ++ repeat AtLoad n).
  rewrite (pass max 0 0 AtLoad (AtStore 1)); [|intros z Hz; assert (z = 0) by lia; subst; reflexivity|reflexivity].
  change (repeat (AtStore 1) (0 + n)) with (repeat AtCreate 0 ++ repeat (AtStore 1) n).
  rewrite (pass max 0 1 (AtStore 1) AtCreate); [|intros z Hz; reflexivity|lia].
  change (repeat AtCreate (0 + n)) with (repeat Returned 0 ++ repeat AtCreate n).
  rewrite (pass max 1 1 AtCreate Returned); [|intros z Hz; cbn; f_equal; lia|reflexivity]. reflexivity.
Qed.

Lemma returned_all n : connections_returned {| r_num := 1; r_pcs := repeat Returned n |} = n.
Proof. unfold connections_returned. cbn [r_pcs]. induction n; [reflexivity|]. cbn. f_equal. exact IHn. Qed.

Lemma race_exceeds n max : (1 <= n)%nat -> 1 <= max -> exists schedule,
  let s := race_run max (race_init n) schedule in connections_returned s = n /\ (forall p, In p (r_pcs s) -> p = Returned) /\ r_num s = 1.
Proof.
  intros Hn Hm. destruct (race_all n max Hn Hm) as [sc E]. exists sc. cbn zeta. rewrite E. split; [apply returned_all|]. split; [|reflexivity]. intros p Hp. exact (repeat_spec _ _ _ Hp).
Qed.
