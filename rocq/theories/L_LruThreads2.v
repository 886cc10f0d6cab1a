(** Lemmas for C83 and C84: one pool per key, and every call ends. *)
From Verif Require Import PyBase L_PyBase PyDict L_PyDict M_Lru L_Lru M_LruThreads S_LruThreads L_LruThreads.

(** ** C83: what the calls of the order do, one after the other *)
Fixpoint effects {K} `{EqDec K} (m : Z) (mk : nat -> option exn) (os : list (top K)) (order : list nat) (c : dict K nat) (n : nat) : list (top K * res (obs K) * list nat) :=
  match order with
  | [] => []
  | i :: r => match nth_error os i with Some o => let '(c', n', x, out) := atom m (mk i) o c n in (o, x, out) :: effects m mk os r c' n' | None => effects m mk os r c n end
  end.
Lemma effects_app {K} `{EqDec K} m mk (os : list (top K)) a b c n : effects m mk os (a ++ b) c n = effects m mk os a c n ++ let '(c', n') := after m mk os a c n in effects m mk os b c' n'.
Proof.
  revert c n. induction a as [|i a IH]; cbn; intros c n; [reflexivity|]. destruct (nth_error os i) as [o|]; [|apply IH]. destruct (atom m (mk i) o c n) as [[[c' n'] r] out]. cbn. f_equal. apply IH.
Qed.
Lemma does_effect {K} `{EqDec K} m mk (s : tstate K) pre i o c n r out : does m mk s pre i (c, n, r, out) -> nth_error (ops s) i = Some o -> In (o, r, out) (effects m mk (ops s) (t_order s) [] 0).
Proof.
  intros (rest & o' & c0 & n0 & E1 & E2 & E3 & E4) E. rewrite E in E2. injection E2 as <-. rewrite E1, effects_app, E3. apply in_or_app. right. cbn. rewrite E, <- E4. left. reflexivity.
Qed.
Lemma effect_does {K} `{EqDec K} m mk (s : tstate K) o r out : In (o, r, out) (effects m mk (ops s) (t_order s) [] 0) -> exists pre i c n, does m mk s pre i (c, n, r, out) /\ nth_error (ops s) i = Some o.
Proof.
  unfold does. assert (G : forall order pre c n, t_order s = pre ++ order -> after m mk (ops s) pre [] 0 = (c, n) -> In (o, r, out) (effects m mk (ops s) order c n) ->
    exists pre i c n, (exists post o c0 n0, t_order s = pre ++ i :: post /\ nth_error (ops s) i = Some o /\ after m mk (ops s) pre [] 0 = (c0, n0) /\ (c, n, r, out) = atom m (mk i) o c0 n0) /\ nth_error (ops s) i = Some o).
  { induction order as [|i order IH]; intros pre c n E A I; cbn in I; [destruct I|].
    destruct (nth_error (ops s) i) as [o'|] eqn:O.
    - destruct (atom m (mk i) o' c n) as [[[c' n'] x] out'] eqn:T. destruct I as [[= -> -> ->]|I].
      + exists pre, i, c', n'. split; [|exact O]. exists order, o, c, n. auto.
      + apply (IH (pre ++ [i]) c' n'); [rewrite <- app_assoc; exact E| |exact I]. rewrite after_app, A. cbn. rewrite O, T. reflexivity.
    - apply (IH (pre ++ [i]) c n); [rewrite <- app_assoc; exact E| |exact I]. rewrite after_app, A. cbn. rewrite O. reflexivity. }
  intros I. exact (G (t_order s) [] [] 0%nat eq_refl eq_refl I).
Qed.

(** the pools returned for a key are in the container under that key, or have been taken out; [made] lists the pools
    with the keys they were made for *)
Definition pinv {K} `{EqDec K} (c : dict K nat) (n : nat) (fx : list (top K * res (obs K) * list nat)) (made : list (K * nat)) : Prop :=
  NoDup (map snd made) /\ (forall k v, In (k, v) made -> (v < n)%nat) /\ (forall k v, dget k c = Some v -> In (k, v) made) /\
  (forall k v out, In (TLookup k, Ok (OVal v), out) fx -> In (k, v) made /\ (dget k c = Some v \/ exists o r out, In (o, r, out) fx /\ In v out)).

Lemma ddel_get {K V} `{EqDec K} (k k' : K) (c : dict K V) v : wf_dict c -> dget k (ddel k' c) = Some v -> dget k c = Some v.
Proof. intros W G. destruct (eq_dec k k') as [-> |N]; [|rewrite dget_ddel_other in G; auto]. exfalso. rewrite dget_ddel_same in G by exact W. discriminate. Qed.

Lemma get_touched {K V} `{EqDec K} (k : K) (v : V) c : wf_dict c -> dget k c = Some v -> forall k', dget k' (dset k v (ddel k c)) = dget k' c.
Proof. intros W G k'. rewrite dget_dset. destruct (eq_dec k' k) as [-> |N]; [auto|]. apply dget_ddel_other. exact N. Qed.
Lemma tail_get {K V} `{EqDec K} (k0 : K) (v0 : V) c k v : wf_dict ((k0, v0) :: c) -> dget k c = Some v -> dget k ((k0, v0) :: c) = Some v.
Proof. intros W G. cbn. destruct (eq_dec k k0) as [-> |N]; [|exact G]. exfalso. inversion W; subst. apply dget_keys in G. contradiction. Qed.
Lemma head_get {K V} `{EqDec K} (k0 : K) (v0 : V) c k v : dget k ((k0, v0) :: c) = Some v -> v = v0 \/ dget k c = Some v.
Proof. cbn. destruct (eq_dec k k0) as [-> |N]; [intros [= ->]; auto|auto]. Qed.

Lemma atom_keeps {K} `{EqDec K} m mk (o : top K) c n c' n' r out : manager_op o = true -> wf_dict c -> atom m mk o c n = (c', n', r, out) ->
  wf_dict c' /\
  ((n' = n /\ (forall k v, dget k c' = Some v -> dget k c = Some v) /\ (forall k v, o = TLookup k -> r = Ok (OVal v) -> dget k c' = Some v /\ dget k c = Some v)) \/
   (n' = S n /\ exists k, o = TLookup k /\ r = Ok (OVal n) /\ dget k c = None /\ (forall k' v, dget k' c' = Some v -> dget k' c = Some v \/ (k' = k /\ v = n)) /\ (dget k c' = Some n \/ In n out))) /\
  (forall k v, dget k c = Some v -> dget k c' = Some v \/ In v out).
Proof.
  intros M W A. destruct o; cbn in M; try discriminate M; cbn in A.
  - unfold lru_get in A. destruct (dget k c) as [v|] eqn:G; injection A as <- <- <- <-.
    + split; [apply wf_dset, wf_ddel; exact W|]. split; [|intros k' v' G'; rewrite (get_touched k v c W G); auto]. left. split; [reflexivity|]. split; [intros k' v'; rewrite (get_touched k v c W G); auto|discriminate].
    + split; [exact W|]. split; [|auto]. left. split; [reflexivity|]. split; [auto|discriminate].
  - unfold lru_get in A. destruct (dget k c) as [v|] eqn:G; injection A as <- <- <- <-.
    + split; [apply wf_dset, wf_ddel; exact W|]. split; [|intros k' v' G'; rewrite (get_touched k v c W G); auto]. left. split; [reflexivity|]. split; [intros k' v'; rewrite (get_touched k v c W G); auto|discriminate].
    + split; [exact W|]. split; [|auto]. left. split; [reflexivity|]. split; [auto|discriminate].
  - unfold lru_del in A. destruct (dget k c) as [v|] eqn:G; injection A as <- <- <- <-.
    + split; [apply wf_ddel; exact W|]. split; [left; split; [reflexivity|]; split; [intros k' v'; apply ddel_get; exact W|discriminate]|].
      intros k' v' G'. destruct (eq_dec k' k) as [-> |N]; [right; left; congruence|]. left. rewrite dget_ddel_other; auto.
    + split; [exact W|]. split; [|auto]. left. split; [reflexivity|]. split; [auto|discriminate].
  - injection A as <- <- <- <-. split; [exact W|]. split; [|auto]. left. split; [reflexivity|]. split; [auto|discriminate].
  - injection A as <- <- <- <-. split; [exact W|]. split; [|auto]. left. split; [reflexivity|]. split; [auto|discriminate].
  - injection A as <- <- <- <-. split; [constructor|]. split; [left; split; [reflexivity|]; split; [intros k v; discriminate|discriminate]|]. intros k v G. right. apply dget_In in G. apply in_map_iff. exists (k, v). auto.
  - unfold lru_get in A. destruct (dget k c) as [v|] eqn:G.
    + injection A as <- <- <- <-. split; [apply wf_dset, wf_ddel; exact W|]. split; [|intros k' v' G'; rewrite (get_touched k v c W G); auto].
      left. split; [reflexivity|]. split; [intros k' v'; rewrite (get_touched k v c W G); auto|]. intros k' v' [= <-] [= <-]. rewrite (get_touched k v c W G). auto.
    + destruct mk as [e|]; [injection A as <- <- <- <-; split; [exact W|]; split; [|auto]; left; split; [reflexivity|]; split; [auto|discriminate]|].
      unfold lru_set in A. rewrite G in A. pose proof (wf_dset k n c W) as W'. destruct (m <? len (dset k n c)).
      * destruct (dset k n c) as [|[k0 v0] c2] eqn:D; [exfalso; apply (f_equal (dget k)) in D; rewrite dget_dset_same in D; discriminate|]. injection A as <- <- <- <-.
        assert (X : forall k' (v' : nat), dget k' ((k0, v0) :: c2) = if eq_dec k' k then Some n else dget k' c) by (intros; rewrite <- D; apply dget_dset).
        split; [inversion W'; assumption|]. split.
        -- right. split; [reflexivity|]. exists k. split; [reflexivity|]. split; [reflexivity|]. split; [exact G|]. split.
           ++ intros k' v' G'. apply (tail_get k0 v0 c2 k' v' W') in G'. rewrite (X k' v') in G'. destruct (eq_dec k' k) as [-> |N]; [injection G' as <-; auto|auto].
           ++ assert (G1 : dget k ((k0, v0) :: c2) = Some n) by (rewrite (X k n); destruct (eq_dec k k); [reflexivity|congruence]). apply head_get in G1 as [-> |G1]; [right; left; reflexivity|auto].
        -- intros k' v' G'. assert (N : k' <> k) by congruence. assert (G1 : dget k' ((k0, v0) :: c2) = Some v') by (rewrite (X k' v'); destruct (eq_dec k' k); [contradiction|exact G']).
           apply head_get in G1 as [-> |G1]; [right; left; reflexivity|auto].
      * injection A as <- <- <- <-. split; [exact W'|]. split.
        -- right. split; [reflexivity|]. exists k. split; [reflexivity|]. split; [reflexivity|]. split; [exact G|]. split; [|left; apply dget_dset_same].
           intros k' v' G'. rewrite dget_dset in G'. destruct (eq_dec k' k) as [-> |N]; [injection G' as <-; auto|auto].
        -- intros k' v' G'. left. rewrite dget_dset_other; [exact G'|congruence].
Qed.

Lemma pinv_step {K} `{EqDec K} m mk (o : top K) c n c' n' r out fx made : manager_op o = true -> wf_dict c -> atom m mk o c n = (c', n', r, out) -> pinv c n fx made -> exists made', pinv c' n' (fx ++ [(o, r, out)]) made'.
Proof.
  intros M W A (P1 & P2 & P3 & P4). destruct (atom_keeps m mk o c n c' n' r out M W A) as (W' & Q & Q2).
  assert (KEEP : forall k v, dget k c = Some v \/ (exists o r out, In (o, r, out) fx /\ In v out) -> dget k c' = Some v \/ exists o' r' out', In (o', r', out') (fx ++ [(o, r, out)]) /\ In v out').
  { intros k v [G|(o' & r' & out' & I & J)].
    - destruct (Q2 k v G) as [G'|J]; [auto|]. right. exists o, r, out. split; [apply in_or_app; right; left; reflexivity|exact J].
    - right. exists o', r', out'. split; [apply in_or_app; auto|exact J]. }
  destruct Q as [(-> & Q & QL)|(-> & k0 & Eo & Er & G0 & Q & QN)].
  - exists made. split; [exact P1|]. split; [exact P2|]. split; [auto|]. intros k v out' I. apply in_app_or in I as [I|[E|[]]].
    + destruct (P4 k v out' I) as [I1 I2]. auto.
    + injection E as E1 E2 E3. destruct (QL k v E1 E2) as [G' G]. auto.
  - exists ((k0, n) :: made). split; [|split; [|split]].
    + cbn. constructor; [|exact P1]. intros I. apply in_map_iff in I as ([k v] & E & I). cbn in E. subst v. apply P2 in I. lia.
    + intros k v [[= -> ->]|I]; [lia|]. apply P2 in I. lia.
    + intros k v G. destruct (Q k v G) as [G'|[-> ->]]; [right; auto|left; reflexivity].
    + intros k v out' I. apply in_app_or in I as [I|[E|[]]].
      * destruct (P4 k v out' I) as [I1 I2]. split; [right; exact I1|auto].
      * rewrite Eo, Er in E. injection E as <- <- <-. split; [left; reflexivity|]. destruct QN as [G|J]; [auto|]. right. exists o, r, out. split; [apply in_or_app; right; left; reflexivity|exact J].
Qed.

Lemma pinv_after {K} `{EqDec K} m mk (os : list (top K)) order : (forall o, In o os -> manager_op o = true) -> forall c n fx made, wf_dict c -> pinv c n fx made ->
  let '(c', n') := after m mk os order c n in wf_dict c' /\ exists made', pinv c' n' (fx ++ effects m mk os order c n) made'.
Proof.
  intros M. induction order as [|i order IH]; intros c n fx made W P; cbn; [rewrite app_nil_r; eauto|]. destruct (nth_error os i) as [o|] eqn:O; [|eapply IH; eassumption].
  destruct (atom m (mk i) o c n) as [[[c1 n1] r] out] eqn:A. apply nth_error_In in O. apply M in O. destruct (pinv_step m (mk i) o c n c1 n1 r out fx made O W A P) as [made1 P1].
  destruct (atom_keeps m (mk i) o c n c1 n1 r out O W A) as (W1 & _). specialize (IH c1 n1 _ made1 W1 P1). rewrite <- app_assoc in IH. exact IH.
Qed.

Lemma ops_begun {K} `{EqDec K} m mk bad (l : list (tevent K)) o : In o (ops (trun m mk bad l)) -> In (TBegin o) l.
Proof.
  unfold trun. assert (G : forall s, In o (ops (fold_left (tstep m mk bad) l s)) -> In (TBegin o) l \/ In o (ops s)).
  { induction l as [|e l IH]; cbn; intros s I; [auto|]. apply IH in I as [I|I]; [auto|]. destruct e as [o'|i]; cbn [tstep] in I.
    - unfold ops in I. cbn in I. rewrite map_app in I. apply in_app_or in I as [I|[<-|[]]]; auto.
    - right. destruct (nth_error (t_calls s) i) as [[o' p]|]; [|exact I]. replace (ops s) with (ops (tinstr bad s i p)); [exact I|]. clear.
      destruct p; cbn [tinstr]; try reflexivity; try (unfold ops; cbn; apply ops_set_prog).
      + destruct (t_lock s) as [[j d]|]; [destruct (Nat.eqb i j); [|reflexivity]|]; unfold ops; cbn; apply ops_set_prog.
      + destruct (t_lock s) as [[j [|[|d]]]|]; unfold ops; cbn; apply ops_set_prog.
      + destruct (t_c s) as [|[k v] c]; unfold ops; cbn; apply ops_set_prog. }
  intros I. destruct (G tinit I) as [J|[]]. exact J.
Qed.

Lemma managed_simple {K} (l : list (tevent K)) : managed l -> all_simple l.
Proof. intros M o I. specialize (M o I). destruct o; cbn in *; congruence. Qed.

Lemma outcome_Ok {A} bad out (r : res A) v : outcome bad out r = Ok v -> r = Ok v.
Proof. induction out as [|x out IH]; cbn; [auto|]. destruct (bad x); [discriminate|exact IH]. Qed.

Lemma lookup_effect {K} `{EqDec K} m mk bad (l : list (tevent K)) i o v : all_simple l -> let s := trun m mk bad l in called s i o -> ended s i (Ok v) -> exists out, In (o, Ok v, out) (effects m mk (ops s) (t_order s) [] 0).
Proof.
  intros S s [p C] E. destruct (ended_result m mk bad l i (Ok v) S E) as (pre & c & n & r & out & D & R & _). symmetry in R. apply outcome_Ok in R. subst r. exists out.
  eapply does_effect; [exact D|]. unfold ops. fold s. rewrite nth_error_map, C. reflexivity.
Qed.

Lemma one_pool {K} `{EqDec K} m mk bad (l : list (tevent K)) i j k v w : managed l -> let s := trun m mk bad l in
  called s i (TLookup k) -> called s j (TLookup k) -> ended s i (Ok (OVal v)) -> ended s j (Ok (OVal w)) -> v = w \/ taken_out m mk s v \/ taken_out m mk s w.
Proof.
  intros M s Ci Cj Ei Ej. destruct (lookup_effect m mk bad l i _ _ (managed_simple l M) Ci Ei) as [oi Fi]. destruct (lookup_effect m mk bad l j _ _ (managed_simple l M) Cj Ej) as [oj Fj]. fold s in Fi, Fj.
  pose proof (pinv_after m mk (ops s) (t_order s) (fun o I => M o (ops_begun m mk bad l o I)) [] 0%nat [] [] (NoDup_nil _)) as P. destruct (after m mk (ops s) (t_order s) [] 0) as [c n]. cbn in P.
  destruct P as (_ & made & P1 & P2 & P3 & P4). { split; [constructor|]. split; [intros ? ? []|]. split; [discriminate|intros ? ? ? []]. }
  destruct (P4 _ _ _ Fi) as [_ [Gi|(o1 & r1 & out1 & X1 & Y1)]].
  - destruct (P4 _ _ _ Fj) as [_ [Gj|(o2 & r2 & out2 & X2 & Y2)]]; [left; congruence|]. right. right. apply effect_does in X2 as (pre & x & c0 & n0 & D & _). exists pre, x, c0, n0, r2, out2. auto.
  - right. left. apply effect_does in X1 as (pre & x & c0 & n0 & D & _). exists pre, x, c0, n0, r1, out1. auto.
Qed.
Lemma own_pool {K} `{EqDec K} m mk bad (l : list (tevent K)) i j k k' v : managed l -> let s := trun m mk bad l in
  called s i (TLookup k) -> called s j (TLookup k') -> ended s i (Ok (OVal v)) -> ended s j (Ok (OVal v)) -> k = k'.
Proof.
  intros M s Ci Cj Ei Ej. destruct (lookup_effect m mk bad l i _ _ (managed_simple l M) Ci Ei) as [oi Fi]. destruct (lookup_effect m mk bad l j _ _ (managed_simple l M) Cj Ej) as [oj Fj]. fold s in Fi, Fj.
  pose proof (pinv_after m mk (ops s) (t_order s) (fun o I => M o (ops_begun m mk bad l o I)) [] 0%nat [] [] (NoDup_nil _)) as P. destruct (after m mk (ops s) (t_order s) [] 0) as [c n]. cbn in P.
  destruct P as (_ & made & P1 & P2 & P3 & P4). { split; [constructor|]. split; [intros ? ? []|]. split; [discriminate|intros ? ? ? []]. }
  destruct (P4 _ _ _ Fi) as [I1 _]. destruct (P4 _ _ _ Fj) as [I2 _]. clear - P1 I1 I2. induction made as [|[a b] made IH]; [destruct I1|]. cbn in P1. inversion P1 as [|? ? N D]; subst.
  destruct I1 as [[= -> ->]|I1], I2 as [E|I2]; [injection E as <-; reflexivity| | |auto].
  - exfalso. apply N. apply in_map_iff. exists (k', v). auto.
  - exfalso. injection E as -> ->. apply N. apply in_map_iff. exists (k, v). auto.
Qed.

Lemma few_step {K} `{EqDec K} m mk (ks : list K) k c n c' n' r out : wf_dict c -> incl (keys c) ks -> In k ks -> Z.of_nat (length ks) <= m -> atom m mk (TLookup k) c n = (c', n', r, out) ->
  wf_dict c' /\ incl (keys c') ks /\ out = [].
Proof.
  intros W I Ik L A. cbn in A. unfold lru_get in A. destruct (dget k c) as [v|] eqn:G.
  - injection A as <- <- <- <-. split; [apply wf_dset, wf_ddel; exact W|]. split; [|reflexivity]. intros x X. apply In_keys_dset in X as [-> |X]; [exact Ik|]. apply In_keys_ddel in X. auto.
  - destruct mk as [e|]; [injection A as <- <- <- <-; auto|]. unfold lru_set in A. rewrite G in A. pose proof (wf_dset k n c W) as W'.
    assert (I' : incl (keys (dset k n c)) ks). { intros x X. apply In_keys_dset in X as [-> |X]; auto. }
    assert (Q : m <? len (dset k n c) = false). { apply Z.ltb_ge. pose proof (NoDup_incl_length W' I') as NL. unfold keys in NL. rewrite map_length in NL. unfold len. lia. }
    rewrite Q in A. injection A as <- <- <- <-. auto.
Qed.
Lemma few_effects {K} `{EqDec K} m mk (ks : list K) (os : list (top K)) order : (forall o, In o os -> exists k, o = TLookup k /\ In k ks) -> Z.of_nat (length ks) <= m ->
  forall c n, wf_dict c -> incl (keys c) ks -> forall o r out, In (o, r, out) (effects m mk os order c n) -> out = [].
Proof.
  intros M L. induction order as [|i order IH]; intros c n W I o r out J; cbn in J; [destruct J|]. destruct (nth_error os i) as [o'|] eqn:O; [|eapply IH; eassumption].
  destruct (atom m (mk i) o' c n) as [[[c1 n1] x] out1] eqn:A. apply nth_error_In in O. destruct (M _ O) as (k & -> & Ik). destruct (few_step m (mk i) ks k c n c1 n1 x out1 W I Ik L A) as (W1 & I1 & E).
  destruct J as [[= <- <- <-]|J]; [exact E|]. exact (IH c1 n1 W1 I1 o r out J).
Qed.
Lemma shared_pool {K} `{EqDec K} m mk bad (ks : list K) (l : list (tevent K)) i j k v w : (forall o, In (TBegin o) l -> exists k, o = TLookup k /\ In k ks) -> Z.of_nat (length ks) <= m ->
  let s := trun m mk bad l in called s i (TLookup k) -> called s j (TLookup k) -> ended s i (Ok (OVal v)) -> ended s j (Ok (OVal w)) -> v = w.
Proof.
  intros M L s Ci Cj Ei Ej. assert (MM : managed l). { intros o I. destruct (M o I) as (k' & -> & _). reflexivity. }
  assert (N : forall x, ~ taken_out m mk s x).
  { intros x (pre & j' & c & n & r & out & D & I). assert (exists o, nth_error (ops s) j' = Some o) as [o O] by (destruct D as (? & o & ? & ? & _ & O & _); eauto).
    pose proof (does_effect m mk s pre j' o c n r out D O) as F. rewrite (few_effects m mk ks (ops s) (t_order s) (fun o I => M o (ops_begun m mk bad l o I)) L [] 0%nat (NoDup_nil _) (fun x X => match X with end) o r out F) in I. destruct I. }
  destruct (one_pool m mk bad l i j k v w MM Ci Cj Ei Ej) as [E|[T|T]]; [exact E| |]; exfalso; eapply N; exact T.
Qed.

(** ** C84: every call ends *)
(** the lock is taken and released in pairs *)
Fixpoint bal {K} (d : nat) (p : prog K) : Prop :=
  match p with
  | Done _ => d = 0%nat
  | Acq q => bal (S d) q
  | Rel q => match d with O => False | S d' => bal d' q end
  | PopKey _ f | GetKey _ f | PopFirst f => forall x, bal d (f x)
  | Store _ _ q | Wipe q => bal d q
  | Count f => forall x, bal d (f x)
  | Names f => forall x, bal d (f x)
  | Values f => forall x, bal d (f x)
  | New f => forall x, bal d (f x)
  | Dispose _ f => forall x, bal d (f x)
  end.
Lemma bal_dispose_all {K} (l : list nat) : bal (K := K) 0 (dispose_all l none_of).
Proof. induction l as [|v l IH]; cbn; [reflexivity|]. intros [e|]; [reflexivity|exact IH]. Qed.
Lemma bal_setitem {K} m (k : K) v ret d : (forall r, bal d (ret r)) -> bal d (setitem m k v ret).
Proof. intros R. cbn. intros old n. destruct (m <? n); cbn; [intros [w|]; cbn; auto; intros [e|]; auto|]. destruct old; cbn; auto. intros [e|]; auto. Qed.
Lemma bal_delitem {K} (k : K) ret d : (forall r, bal d (ret r)) -> bal d (delitem k ret).
Proof. intros R. cbn. intros [v|]; cbn; auto. intros [e|]; auto. Qed.
Lemma bal_prog {K} m mk (o : top K) : bal 0 (prog_of m mk o).
Proof.
  destruct o.
  - cbn. intros [v|]; reflexivity.
  - cbn. intros [v|]; reflexivity.
  - apply bal_setitem. reflexivity.
  - apply bal_delitem. reflexivity.
  - cbn. reflexivity.
  - cbn. reflexivity.
  - cbn. intros l. apply bal_dispose_all.
  - cbn -[setitem]. intros [v|]; cbn -[setitem]; [reflexivity|]. destruct mk as [e|]; cbn -[setitem]; [reflexivity|]. intros n. apply bal_setitem. intros r. reflexivity.
  - cbn -[delitem]. intros [v|]; cbn -[delitem]; [|reflexivity]. apply bal_delitem. reflexivity.
  - cbn -[setitem]. intros [w|]; cbn -[setitem]; [reflexivity|]. apply bal_setitem. reflexivity.
Qed.

Definition held_by {K} (s : tstate K) (i : nat) : nat := match t_lock s with Some (j, d) => if Nat.eqb i j then d else 0%nat | None => 0%nat end.
Record binv {K} (s : tstate K) : Prop := {
  bi_call : forall i o p, nth_error (t_calls s) i = Some (o, p) -> bal (held_by s i) p;
  bi_own : forall i d, t_lock s = Some (i, d) -> (0 < d)%nat /\ (i < length (t_calls s))%nat
}.
Lemma binv_other {K} (s s' : tstate K) i p' : binv s -> (i < length (t_calls s))%nat -> t_calls s' = set_prog i p' (t_calls s) -> (forall j, j <> i -> held_by s' j = held_by s j) -> bal (held_by s' i) p' ->
  (forall j d, t_lock s' = Some (j, d) -> (0 < d)%nat /\ (j = i \/ exists d', t_lock s = Some (j, d'))) -> binv s'.
Proof.
  intros B Li EC EH BP EL. constructor.
  - intros j o p E. rewrite EC, nth_set_prog in E. destruct (Nat.eqb i j) eqn:Q.
    + apply Nat.eqb_eq in Q as <-. destruct (nth_error (t_calls s) i) as [[o' p0]|]; [|discriminate]. injection E as <- <-. exact BP.
    + apply Nat.eqb_neq in Q. rewrite EH by auto. apply (bi_call _ B _ _ _ E).
  - intros j d E. rewrite (len_calls _ _ _ _ EC). destruct (EL j d E) as [P [-> |[d' E']]]; [auto|]. split; [exact P|]. apply (bi_own _ B _ _ E').
Qed.
Lemma binv_same_lock {K} (s s' : tstate K) i p' : binv s -> (i < length (t_calls s))%nat -> t_calls s' = set_prog i p' (t_calls s) -> t_lock s' = t_lock s -> bal (held_by s i) p' -> binv s'.
Proof.
  intros B Li EC EK BP. apply (binv_other s s' i p' B Li EC).
  - intros j _. unfold held_by. rewrite EK. reflexivity.
  - unfold held_by in *. rewrite EK. exact BP.
  - intros j d. rewrite EK. intros E. split; [apply (bi_own _ B _ _ E)|right; eauto].
Qed.
Lemma binv_instr {K} `{EqDec K} bad (s : tstate K) i o p : binv s -> nth_error (t_calls s) i = Some (o, p) -> binv (tinstr bad s i p).
Proof.
  intros B C. pose proof (bi_call _ B _ _ _ C) as P. pose proof (nth_lt _ _ _ C) as Li. destruct p as [r|q|q|k f|k f|k v q|f|f|f|f|q|f|v f]; cbn [tinstr]; cbn in P.
  - exact B.
  - destruct (t_lock s) as [[j d]|] eqn:L.
    + destruct (Nat.eqb i j) eqn:Q; [|exact B]. pose proof Q as Q'. apply Nat.eqb_eq in Q' as <-. eapply (binv_other s _ i q B Li); cbn; [reflexivity| | |].
      * intros j N. unfold held_by. cbn. rewrite L. apply Nat.eqb_neq in N. rewrite N. reflexivity.
      * unfold held_by in *. cbn. rewrite L in P. rewrite Nat.eqb_refl in *. exact P.
      * intros j d0 [= <- <-]. split; [lia|auto].
    + eapply (binv_other s _ i q B Li); cbn; [reflexivity| | |].
      * intros j N. unfold held_by. cbn. rewrite L. apply Nat.eqb_neq in N. rewrite N. reflexivity.
      * unfold held_by in *. cbn. rewrite L in P. rewrite Nat.eqb_refl. exact P.
      * intros j d0 [= <- <-]. split; [lia|auto].
  - unfold held_by in P. destruct (t_lock s) as [[j d]|] eqn:L; [|destruct P]. destruct (Nat.eqb i j) eqn:Q; [|destruct P]. apply Nat.eqb_eq in Q as <-. destruct d as [|[|d]]; [destruct P| |].
    + eapply (binv_other s _ i q B Li); cbn; [reflexivity| | |].
      * intros j N. unfold held_by. cbn. rewrite L. apply Nat.eqb_neq in N. rewrite N. reflexivity.
      * exact P.
      * discriminate.
    + eapply (binv_other s _ i q B Li); cbn; [reflexivity| | |].
      * intros j N. unfold held_by. cbn. rewrite L. apply Nat.eqb_neq in N. rewrite N. reflexivity.
      * unfold held_by. cbn. rewrite Nat.eqb_refl. exact P.
      * intros j d0 [= <- <-]. split; [lia|auto].
  - eapply (binv_same_lock s _ i _ B Li); cbn; auto.
  - eapply (binv_same_lock s _ i _ B Li); cbn; auto.
  - eapply (binv_same_lock s _ i _ B Li); cbn; auto.
  - eapply (binv_same_lock s _ i _ B Li); cbn; auto.
  - eapply (binv_same_lock s _ i _ B Li); cbn; auto.
  - destruct (t_c s) as [|[k v] c]; eapply (binv_same_lock s _ i _ B Li); cbn; auto.
  - eapply (binv_same_lock s _ i _ B Li); cbn; auto.
  - eapply (binv_same_lock s _ i _ B Li); cbn; auto.
  - eapply (binv_same_lock s _ i _ B Li); cbn; auto.
  - eapply (binv_same_lock s _ i _ B Li); cbn; auto.
Qed.
Lemma binv_step {K} `{EqDec K} m mk bad (s : tstate K) e : binv s -> binv (tstep m mk bad s e).
Proof.
  intros B. destruct e as [o|i]; cbn [tstep]; [|destruct (nth_error (t_calls s) i) as [[o p]|] eqn:C; [exact (binv_instr bad s i o p B C)|exact B]].
  constructor; cbn.
  - intros i o' p E. destruct (Nat.lt_ge_cases i (length (t_calls s))) as [Li|Li].
    + rewrite nth_error_app1 in E by exact Li. exact (bi_call _ B _ _ _ E).
    + rewrite nth_error_app2 in E by exact Li. destruct (i - length (t_calls s))%nat as [|x]; cbn in E; [injection E as <- <-|destruct x; discriminate].
      assert (Z : held_by s i = 0%nat). { unfold held_by. destruct (t_lock s) as [[j d]|] eqn:L; [|reflexivity]. destruct (Nat.eqb i j) eqn:Q; [|reflexivity]. apply Nat.eqb_eq in Q as <-. apply (bi_own _ B) in L. lia. }
      unfold held_by in *. cbn. rewrite Z. apply bal_prog.
  - intros i d L. apply (bi_own _ B) in L. rewrite app_length. lia.
Qed.
Lemma binv_from {K} `{EqDec K} m mk bad (l : list (tevent K)) s : binv s -> binv (fold_left (tstep m mk bad) l s).
Proof. revert s. induction l as [|e l IH]; cbn; intros s B; [exact B|]. apply IH, binv_step, B. Qed.
Lemma binv_init {K} : binv (tinit (K := K)).
Proof. constructor; cbn; [intros i o p E; destruct i; discriminate|discriminate]. Qed.

(** call i runs to its end, if nobody else holds the lock *)
Definition done_at {K} (s : tstate K) (i : nat) : Prop := exists o r, nth_error (t_calls s) i = Some (o, Done r).
Definition only {K} (s s' : tstate K) (i : nat) : Prop := length (t_calls s') = length (t_calls s) /\ forall j, j <> i -> nth_error (t_calls s') j = nth_error (t_calls s) j.
Lemma only_set {K} (s s' : tstate K) i p : t_calls s' = set_prog i p (t_calls s) -> only s s' i.
Proof. intros E. split; [exact (len_calls _ _ _ _ E)|]. intros j N. rewrite E, nth_set_prog. apply Nat.neq_sym, Nat.eqb_neq in N. rewrite N. reflexivity. Qed.
Lemma only_trans {K} (a b c : tstate K) i : only a b i -> only b c i -> only a c i.
Proof. intros [L1 E1] [L2 E2]. split; [congruence|]. intros j N. rewrite E2, E1; auto. Qed.
Lemma nth_set_same {K} i p o q (l : list (top K * prog K)) : nth_error l i = Some (o, q) -> nth_error (set_prog i p l) i = Some (o, p).
Proof. intros E. rewrite nth_set_prog, Nat.eqb_refl, E. reflexivity. Qed.

Lemma drive {K} `{EqDec K} m mk bad i o (p : prog K) : forall s d, nth_error (t_calls s) i = Some (o, p) -> bal d p -> t_lock s = match d with O => None | S _ => Some (i, d) end ->
  exists n, let s' := fold_left (tstep m mk bad) (repeat (TStep i) n) s in done_at s' i /\ t_lock s' = None /\ only s s' i.
Proof.
  assert (GO : forall s q, nth_error (t_calls s) i = Some (o, q) -> forall s1 q1 d1, tinstr bad s i q = s1 -> t_calls s1 = set_prog i q1 (t_calls s) -> bal d1 q1 -> t_lock s1 = match d1 with O => None | S _ => Some (i, d1) end ->
    (forall s d, nth_error (t_calls s) i = Some (o, q1) -> bal d q1 -> t_lock s = match d with O => None | S _ => Some (i, d) end ->
      exists n, let s' := fold_left (tstep m mk bad) (repeat (TStep i) n) s in done_at s' i /\ t_lock s' = None /\ only s s' i) ->
    exists n, let s' := fold_left (tstep m mk bad) (repeat (TStep i) n) s in done_at s' i /\ t_lock s' = None /\ only s s' i).
  { intros s q C s1 q1 d1 E EC B L IH. assert (C1 : nth_error (t_calls s1) i = Some (o, q1)) by (rewrite EC; eapply nth_set_same; exact C).
    destruct (IH s1 d1 C1 B L) as (n & D & L' & O). exists (S n). cbn [repeat fold_left]. assert (X : tstep m mk bad s (TStep i) = s1) by (cbn [tstep]; rewrite C; exact E). rewrite X. cbn zeta. split; [exact D|]. split; [exact L'|].
    apply (only_trans s s1); [exact (only_set s s1 i q1 EC)|exact O]. }
  induction p as [r|p IH|p IH|k f IH|k f IH|k v p IH|f IH|f IH|f IH|f IH|p IH|f IH|v f IH]; intros s d C B L; cbn in B.
  - subst d. exists 0%nat. cbn. split; [exists o, r; exact C|]. split; [exact L|]. split; auto.
  - eapply (GO s _ C _ p (S d)); [reflexivity| | | |exact IH]; [|exact B|]; cbn [tinstr]; rewrite L; destruct d; try rewrite Nat.eqb_refl; reflexivity.
  - destruct d as [|d]; [destruct B|]. eapply (GO s _ C _ p d); [reflexivity| | | |exact IH]; [|exact B|]; cbn [tinstr]; rewrite L; destruct d; reflexivity.
  - eapply (GO s _ C _ _ d); [reflexivity|reflexivity|apply B|exact L|apply IH].
  - eapply (GO s _ C _ _ d); [reflexivity|reflexivity|apply B|exact L|apply IH].
  - eapply (GO s _ C _ _ d); [reflexivity|reflexivity|apply B|exact L|apply IH].
  - eapply (GO s _ C _ _ d); [reflexivity|reflexivity|apply B|exact L|apply IH].
  - eapply (GO s _ C _ _ d); [reflexivity|reflexivity|apply B|exact L|apply IH].
  - destruct (t_c s) as [|[k v] c] eqn:Ec.
    + eapply (GO s _ C _ (f None) d); [reflexivity| |apply B| |apply IH]; cbn [tinstr]; rewrite Ec; [reflexivity|exact L].
    + eapply (GO s _ C _ (f (Some v)) d); [reflexivity| |apply B| |apply IH]; cbn [tinstr]; rewrite Ec; [reflexivity|exact L].
  - eapply (GO s _ C _ _ d); [reflexivity|reflexivity|apply B|exact L|apply IH].
  - eapply (GO s _ C _ _ d); [reflexivity|reflexivity|apply B|exact L|apply IH].
  - eapply (GO s _ C _ _ d); [reflexivity|reflexivity|apply B|exact L|apply IH].
  - eapply (GO s _ C _ _ d); [reflexivity|reflexivity|apply B|exact L|apply IH].
Qed.

Lemma all_end {K} `{EqDec K} m mk bad (s : tstate K) : binv s -> exists l, (forall e, In e l -> exists i, e = TStep i) /\ quiet (fold_left (tstep m mk bad) l s).
Proof.
  intros B.
  assert (FREE : exists l, (forall e, In e l -> exists i, e = TStep i) /\ t_lock (fold_left (tstep m mk bad) l s) = None).
  { destruct (t_lock s) as [[i d]|] eqn:L; [|exists []; split; [intros e []|exact L]]. destruct (bi_own _ B _ _ L) as [P Li]. apply nth_error_Some in Li. destruct (nth_error (t_calls s) i) as [[o p]|] eqn:C; [|congruence].
    pose proof (bi_call _ B _ _ _ C) as BP. unfold held_by in BP. rewrite L, Nat.eqb_refl in BP. destruct (drive m mk bad i o p s d C BP) as (n & _ & L' & _); [destruct d; [lia|exact L]|].
    exists (repeat (TStep i) n). split; [|exact L']. intros e I. apply repeat_spec in I. eauto. }
  destruct FREE as (l0 & Q0 & L0). pose proof (binv_from m mk bad l0 s B) as B0. set (s0 := fold_left (tstep m mk bad) l0 s) in *.
  assert (G : forall n, (n <= length (t_calls s0))%nat -> exists l, (forall e, In e l -> exists i, e = TStep i) /\ let s' := fold_left (tstep m mk bad) l s0 in t_lock s' = None /\ length (t_calls s') = length (t_calls s0) /\ forall i, (i < n)%nat -> done_at s' i).
  { induction n as [|n IH]; intros Ln; [exists []; cbn; split; [intros e []|]; split; [exact L0|]; split; [reflexivity|intros i X; lia]|].
    destruct (IH ltac:(lia)) as (l1 & Q1 & L1 & E1 & D1). pose proof (binv_from m mk bad l1 s0 B0) as B1. set (s1 := fold_left (tstep m mk bad) l1 s0) in *.
    assert (Li : (n < length (t_calls s1))%nat) by lia. apply nth_error_Some in Li. destruct (nth_error (t_calls s1) n) as [[o p]|] eqn:C; [|congruence].
    pose proof (bi_call _ B1 _ _ _ C) as BP. unfold held_by in BP. rewrite L1 in BP. destruct (drive m mk bad n o p s1 0%nat C BP L1) as (k & D & L' & O1 & O2).
    exists (l1 ++ repeat (TStep n) k). split; [intros e I; apply in_app_or in I as [I|I]; [auto|apply repeat_spec in I; eauto]|]. rewrite fold_left_app. fold s1. cbn zeta. split; [exact L'|]. split; [congruence|].
    intros i X. destruct (Nat.eq_dec i n) as [-> |N]; [exact D|]. destruct (D1 i ltac:(lia)) as (o' & r' & C'). exists o', r'. rewrite O2 by exact N. exact C'. }
  destruct (G _ (Nat.le_refl _)) as (l1 & Q1 & L1 & E1 & D1). exists (l0 ++ l1). split; [intros e I; apply in_app_or in I as [I|I]; auto|]. rewrite fold_left_app. fold s0. intros i o p C.
  destruct (D1 i) as (o' & r' & C'); [rewrite <- E1; apply nth_lt in C; exact C|]. rewrite C in C'. injection C' as <- ->. eauto.
Qed.
Lemma completes {K} `{EqDec K} m mk bad (l : list (tevent K)) : exists l', (forall e, In e l' -> exists i, e = TStep i) /\ quiet (trun m mk bad (l ++ l')).
Proof. unfold trun. destruct (all_end m mk bad (fold_left (tstep m mk bad) l tinit) (binv_from m mk bad l tinit binv_init)) as (l' & A & B). exists l'. split; [exact A|]. rewrite fold_left_app. exact B. Qed.

(** ** no infinite run *)
Definition sub {K} (q p : prog K) : Prop :=
  match p with
  | Done _ => False
  | Acq a | Rel a | Store _ _ a | Wipe a => q = a
  | PopKey _ f | GetKey _ f | PopFirst f => exists x, q = f x
  | Count f => exists x, q = f x
  | Names f => exists x, q = f x
  | Values f => exists x, q = f x
  | New f => exists x, q = f x
  | Dispose _ f => exists x, q = f x
  end.
Lemma sub_wf {K} (p : prog K) : Acc sub p.
Proof. induction p; constructor; cbn; intros q Q; try (destruct Q; fail); try (subst; assumption); destruct Q as [x ->]; auto. Qed.
Definition lsub {K} (l' l : list (top K * prog K)) : Prop := exists i o p q, nth_error l i = Some (o, p) /\ sub q p /\ l' = set_prog i q l.
Lemma lsub_cons {K} (p : prog K) : Acc sub p -> forall l, Acc lsub l -> forall o, Acc lsub ((o, p) :: l).
Proof.
  induction 1 as [p _ IHp]. intros l A. induction A as [l Hl IHl]. intros o. constructor. intros l' (i & o' & p' & q & E & S & ->). destruct i as [|i]; cbn in E |- *.
  - injection E as <- <-. apply IHp; [exact S|constructor; exact Hl].
  - apply IHl. exists i, o', p', q. auto.
Qed.
Lemma lsub_wf {K} (l : list (top K * prog K)) : Acc lsub l.
Proof. induction l as [|[o p] l IH]; [constructor; intros l' (i & o & p & q & E & _); destruct i; discriminate|]. apply lsub_cons; [apply sub_wf|exact IH]. Qed.
Lemma instr_sub {K} `{EqDec K} bad (s : tstate K) i p : tinstr bad s i p = s \/ exists q, sub q p /\ t_calls (tinstr bad s i p) = set_prog i q (t_calls s).
Proof.
  destruct p; cbn [tinstr]; try (right; eexists; split; [|reflexivity]; cbn; eauto; fail); [auto| | |].
  - destruct (t_lock s) as [[j d]|]; [destruct (Nat.eqb i j); [|auto]|]; right; eexists; (split; [|reflexivity]); reflexivity.
  - right. exists p. split; [reflexivity|]. destruct (t_lock s) as [[j [|[|d]]]|]; reflexivity.
  - right. destruct (t_c s) as [|[k v] c]; eexists; (split; [|reflexivity]); cbn; eauto.
Qed.
Lemma moves_wf {K} `{EqDec K} m mk bad (s : tstate K) : Acc (moves m mk bad) s.
Proof.
  remember (t_calls s) as l eqn:E. revert s E. induction (lsub_wf l) as [l _ IH]. intros s ->. constructor. intros s' (i & -> & N). cbn [tstep] in *. destruct (nth_error (t_calls s) i) as [[o p]|] eqn:C; [|congruence].
  destruct (instr_sub bad s i p) as [E|(q & S & E)]; [congruence|]. eapply IH; [|symmetry; exact E]. exists i, o, p, q. auto.
Qed.
(** whatever has not ended can be continued *)
Lemma not_stuck {K} `{EqDec K} m mk bad (l : list (tevent K)) : (forall i, tstep m mk bad (trun m mk bad l) (TStep i) = trun m mk bad l) -> quiet (trun m mk bad l).
Proof.
  intros N. destruct (completes m mk bad l) as (l' & A & Q). unfold trun in Q. rewrite fold_left_app in Q. change (fold_left (tstep m mk bad) l tinit) with (trun m mk bad l) in Q. revert Q. generalize (trun m mk bad l), N. clear N.
  induction l' as [|e l' IH]; intros s N Q; [exact Q|]. destruct (A e (or_introl eq_refl)) as [i ->]. cbn [fold_left] in Q. rewrite N in Q. apply IH; [|exact N|exact Q]. intros e I. apply A. right. exact I.
Qed.
