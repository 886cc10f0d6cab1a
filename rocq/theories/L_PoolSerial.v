(** Lemmas behind C139. *)
From Coq Require Import ZifyBool.
From Verif Require Import PyBase L_PyBase M_ConnPool S_Pool L_ConnPool M_PoolThreads S_PoolThreads L_PoolThreads S_PoolSerial.

(** ** What is left of an operation, as one thread would do it *)
Definition with_num (v : Z) (q : pool) : pool := {| p_free := p_free q; p_num := v; p_attempts := p_attempts q; p_closed := p_closed q |}.
Definition with_made (q : pool) : pool := {| p_free := p_free q; p_num := p_num q; p_attempts := S (p_attempts q); p_closed := p_closed q |}.
Definition with_shut (x : list nat) (q : pool) : pool := {| p_free := None; p_num := p_num q; p_attempts := p_attempts q; p_closed := p_closed q ++ x |}.
Definition f_drop (y : bool) (c : nat) (q : pool) : pool * outcome := if y || mem_nat c (p_closed q) then (add_num (close_conn q c) (-1), OGot c) else (q, OGot c).
Definition f_back (k : back) (y : bool) (q : pool) : pool * outcome := match k with ToCaller => (q, ODone) | ToGet c => f_drop y c q end.
Definition f_make (cfg : config) (w : whose) (x y : bool) (q : pool) : pool * outcome :=
  if x then match w with ForCaller => (with_made q, OGot (p_attempts q)) | ForRefill c => f_drop y c (put_conn cfg (with_made q) (p_attempts q)) end else (with_made q, OErr OSError).
Definition f_check (cfg : config) (w : whose) (x y : bool) (q : pool) : pool * outcome :=
  if max_connections cfg <=? p_num q then (q, OErr EmptyPoolError) else f_make cfg w x y (with_num (p_num q + 1) q).
Definition f_size (cfg : config) (c : nat) (x y : bool) (qs : list nat) (q : pool) : pool * outcome := if len qs <? min_free cfg then f_check cfg (ForRefill c) x y q else f_drop y c q.
Definition fin (cfg : config) (x y : bool) (qs : list nat) (p : tpc) (q : pool) : pool * outcome :=
  match p with
  | Idle => (q, ODone)
  | GLoad _ | GTake _ => s_do cfg (SGet (fun _ => x) (fun _ => y)) q
  | GSizeLoad c | GSize c => f_size cfg c x y qs q
  | NCheck w => f_check cfg w x y q
  | NLoad w => f_make cfg w x y (with_num (p_num q + 1) q)
  | NStore w v => f_make cfg w x y (with_num v q)
  | NMake w => f_make cfg w x y q
  | PLoad k c | PPut k c => f_back k y (put_conn cfg q c)
  | PLock k c | PDecLoad k c => f_back k y (close_conn (add_num q (-1)) c)
  | PDecStore k c v => f_back k y (close_conn (with_num v q) c)
  | PClose k c => f_back k y (close_conn q c)
  | GDrop c => f_drop y c q
  | GClose c => (add_num (close_conn q c) (-1), OGot c)
  | GLock c | GDecLoad c => (add_num q (-1), OGot c)
  | GDecStore c v => (with_num v q, OGot c)
  | CLoad => s_do cfg SClose q
  | CStore was | CDrain was => if was then (with_shut qs q, ODone) else (q, OErr AttributeError)
  | CShut c => (with_shut (c :: qs) q, ODone)
  end.

(** where the same thread stands, with other numbers for the connections *)
Definition ren_w (f : nat -> nat) (w : whose) : whose := match w with ForCaller => ForCaller | ForRefill c => ForRefill (f c) end.
Definition ren_k (f : nat -> nat) (k : back) : back := match k with ToCaller => ToCaller | ToGet c => ToGet (f c) end.
Definition ren (f : nat -> nat) (p : tpc) : tpc :=
  match p with
  | Idle => Idle | GLoad b => GLoad b | GTake b => GTake b | GSizeLoad c => GSizeLoad (f c) | GSize c => GSize (f c)
  | NCheck w => NCheck (ren_w f w) | NLoad w => NLoad (ren_w f w) | NStore w v => NStore (ren_w f w) v | NMake w => NMake (ren_w f w)
  | PLoad k c => PLoad (ren_k f k) (f c) | M_PoolThreads.PPut k c => M_PoolThreads.PPut (ren_k f k) (f c) | PLock k c => PLock (ren_k f k) (f c) | PDecLoad k c => PDecLoad (ren_k f k) (f c)
  | PDecStore k c v => PDecStore (ren_k f k) (f c) v | M_PoolThreads.PClose k c => M_PoolThreads.PClose (ren_k f k) (f c)
  | GDrop c => GDrop (f c) | GClose c => GClose (f c) | GLock c => GLock (f c) | GDecLoad c => GDecLoad (f c) | GDecStore c v => GDecStore (f c) v
  | CLoad => CLoad | CStore w => CStore w | CDrain w => CDrain w | CShut c => CShut (f c)
  end.

Record rel (f : nat -> nat) (s : ts) (q : pool) : Prop := {
  r_inj : apart f (h_made s);
  r_low : forall c, (c < h_made s)%nat -> (f c < p_attempts q)%nat;
  r_same : same_pool f s q;
  r_cl : forall c, In c (h_closed s) -> (c < h_made s)%nat }.
Definition mid (s : ts) (p : tpc) : Prop :=
  match p with
  | GTake _ | GSizeLoad _ | GSize _ | M_PoolThreads.PPut _ _ => h_open s = true
  | CStore was => was = h_open s
  | CDrain _ | CShut _ => h_open s = false
  | _ => True
  end.

(** how thread i goes on *)
Definition goes (cfg : config) (f : nat -> nat) (q : pool) (i : nat) (pc : tpc) (s s' : ts) : Prop := exists f' q' t', nth_error (h_threads s') i = Some t' /\
  (forall c, (c < h_made s)%nat -> f' c = f c) /\ (h_made s <= h_made s')%nat /\ rel f' s' q' /\
  ((t_pc t' = Idle /\ exists o x y, h_log s' = h_log s ++ [(i, o)] /\ (forall c, o = OGot c -> (c < h_made s')%nat) /\ fin cfg x y (map f (h_queue s)) (ren f pc) q = (q', named f' o)) \/
   (t_pc t' <> Idle /\ mid s' (t_pc t') /\ h_log s' = h_log s /\ forall x2 y2, exists x y, fin cfg x y (map f (h_queue s)) (ren f pc) q = fin cfg x2 y2 (map f' (h_queue s')) (ren f' (t_pc t')) q')).

Lemma mem_ren f n c l : apart f n -> (c < n)%nat -> (forall d, In d l -> (d < n)%nat) -> mem_nat (f c) (map f l) = mem_nat c l.
Proof.
  intros A Hc Hl. induction l as [|d l IH]; [reflexivity|]. cbn. unfold mem_nat in IH. rewrite IH by (intros e He; apply Hl; right; exact He). f_equal.
  destruct (Nat.eqb_spec c d) as [->|N]; [apply Nat.eqb_refl|]. apply Nat.eqb_neq. intros E. apply N. apply A; auto. apply Hl. left. reflexivity.
Qed.
Lemma len_map {A B} (g : A -> B) l : len (map g l) = len l.
Proof. unfold len. now rewrite map_length. Qed.
Lemma full_ren cfg f l : q_full cfg (map f l) = q_full cfg l.
Proof. unfold q_full. now rewrite len_map. Qed.
Lemma place_low s i t c : one_place s -> nth_error (h_threads s) i = Some t -> In c (pc_conns (t_pc t)) -> (c < h_made s)%nat.
Proof.
  intros P Hi Hc. pose proof (P c) as Pc. pose proof (total_nth c i t _ Hi) as T. unfold owned in T. rewrite cnt_app in T. apply In_cnt in Hc. destruct (Nat.ltb_spec c (h_made s)); lia.
Qed.
Lemma lent_low s i t c : one_place s -> nth_error (h_threads s) i = Some t -> In c (t_lent t) -> (c < h_made s)%nat.
Proof.
  intros P Hi Hc. pose proof (P c) as Pc. pose proof (total_nth c i t _ Hi) as T. unfold owned in T. rewrite cnt_app in T. apply In_cnt in Hc. destruct (Nat.ltb_spec c (h_made s)); lia.
Qed.
Lemma queue_low s c : one_place s -> In c (h_queue s) -> (c < h_made s)%nat.
Proof. intros P Hc. pose proof (P c) as Pc. apply In_cnt in Hc. destruct (Nat.ltb_spec c (h_made s)); lia. Qed.

(** ** One step of the thread that is in an operation *)
Lemma goes_on cfg f q q' i t p s s' pc : nth_error (h_threads s) i = Some t -> h_threads s' = updt i {| t_pc := p; t_lent := t_lent t |} (h_threads s) -> (h_made s <= h_made s')%nat -> rel f s' q' -> p <> Idle -> mid s' p -> h_log s' = h_log s ->
  (forall x2 y2, exists x y, fin cfg x y (map f (h_queue s)) (ren f pc) q = fin cfg x2 y2 (map f (h_queue s')) (ren f p) q') -> goes cfg f q i pc s s'.
Proof.
  intros Hi Ht Hm R N M L F. exists f, q', {| t_pc := p; t_lent := t_lent t |}. split; [rewrite Ht; exact (nth_updt_same _ _ _ _ Hi)|]. split; [reflexivity|]. split; [exact Hm|]. split; [exact R|]. right. auto.
Qed.
Lemma goes_end cfg f q q' i t t' o x y s s' pc : nth_error (h_threads s) i = Some t -> h_threads s' = updt i t' (h_threads s) -> t_pc t' = Idle -> (h_made s <= h_made s')%nat -> rel f s' q' -> h_log s' = h_log s ++ [(i, o)] -> (forall c, o = OGot c -> (c < h_made s')%nat) ->
  fin cfg x y (map f (h_queue s)) (ren f pc) q = (q', named f o) -> goes cfg f q i pc s s'.
Proof.
  intros Hi Ht Hp Hm R L O F. exists f, q', t'. split; [rewrite Ht; exact (nth_updt_same _ _ _ _ Hi)|]. split; [reflexivity|]. split; [exact Hm|]. split; [exact R|]. left. split; [exact Hp|]. exists o, x, y. auto.
Qed.
Lemma goes_stays cfg f q i t s : nth_error (h_threads s) i = Some t -> rel f s q -> t_pc t <> Idle -> mid s (t_pc t) -> goes cfg f q i (t_pc t) s s.
Proof.
  intros Hi R N M. exists f, q, t. split; [exact Hi|]. split; [reflexivity|]. split; [lia|]. split; [exact R|]. right. split; [exact N|]. split; [exact M|]. split; [reflexivity|]. intros x y. exists x, y. reflexivity.
Qed.
Lemma rel_any f s s' q : rel f s q -> h_made s' = h_made s -> h_open s' = h_open s -> h_queue s' = h_queue s -> h_num s' = h_num s -> h_closed s' = h_closed s -> rel f s' q.
Proof. intros [I L (A & B & C) D] E1 E2 E3 E4 E5. constructor; [now rewrite E1|now rewrite E1|unfold same_pool; now rewrite E2, E3, E4, E5|now rewrite E1, E5]. Qed.
Lemma rel_num f s s' q v : rel f s q -> h_made s' = h_made s -> h_open s' = h_open s -> h_queue s' = h_queue s -> h_num s' = v -> h_closed s' = h_closed s -> rel f s' (with_num v q).
Proof. intros [I L (A & B & C) D] E1 E2 E3 E4 E5. constructor; [now rewrite E1|now rewrite E1|unfold same_pool; rewrite E2, E3, E4, E5; auto|now rewrite E1, E5]. Qed.
Lemma rel_shut f s s' q c : rel f s q -> (c < h_made s)%nat -> h_made s' = h_made s -> h_open s' = h_open s -> h_queue s' = h_queue s -> h_num s' = h_num s -> h_closed s' = h_closed s ++ [c] -> rel f s' (close_conn q (f c)).
Proof.
  intros [I L (A & B & C) D] Hc E1 E2 E3 E4 E5. constructor; [now rewrite E1|now rewrite E1|unfold same_pool; rewrite E2, E3, E4, E5; cbn; rewrite map_app, C; auto|]. rewrite E1, E5. intros d [H|[<-|[]]]%in_app_or; auto.
Qed.
Lemma rel_queue f s s' q x : rel f s q -> h_open s = true -> h_made s' = h_made s -> h_open s' = h_open s -> h_queue s' = x -> h_num s' = h_num s -> h_closed s' = h_closed s -> rel f s' (set_free q (Some (map f x))).
Proof. intros [I L (A & B & C) D] O E1 E2 E3 E4 E5. constructor; [now rewrite E1|now rewrite E1|unfold same_pool; rewrite E2, E3, E4, E5, O; auto|now rewrite E1, E5]. Qed.
Lemma put_back cfg f q q' i t k s s0 s' pc : nth_error (h_threads s) i = Some t -> h_threads s0 = h_threads s -> h_log s0 = h_log s -> (h_made s <= h_made s0)%nat -> rel f s0 q' -> s' = put_over i t k s0 ->
  (forall y, exists x y', fin cfg x y' (map f (h_queue s)) (ren f pc) q = f_back (ren_k f k) y q') -> goes cfg f q i pc s s'.
Proof.
  intros Hi Ht Hl Hm R -> F. destruct k as [|d].
  - destruct (F false) as (x & y & E). refine (goes_end cfg f q q' i t {| t_pc := Idle; t_lent := t_lent t |} ODone x y s _ pc Hi _ eq_refl _ _ _ _ E); cbn; try now rewrite ?Ht, ?Hl. eapply rel_any; [exact R|..]; reflexivity.
  - refine (goes_on cfg f q q' i t (GDrop d) s _ pc Hi _ _ _ _ _ _ _); cbn; try now rewrite ?Ht, ?Hl; try exact Logic.I; try discriminate. eapply rel_any; [exact R|..]; reflexivity.
Qed.
Lemma go_sim cfg f q i b t s : one_place s -> rel f s q -> nth_error (h_threads s) i = Some t -> t_pc t <> Idle -> mid s (t_pc t) -> goes cfg f q i (t_pc t) s (go cfg i b t s).
Proof.
  intros P R Hi N M. pose proof (fun c => place_low s i t c P Hi) as Lo. pose proof R as [RI RL (RF & RN & RC) RD]. unfold go.
  destruct (t_pc t) as [|tmo|tmo|c|c|w|w|w v|w|k c|k c|k c|k c|k c v|k c|c|c|c|c|c v| |was|was|c] eqn:Ep; cbn [mid pc_conns] in *.
  - congruence.
  - (* GLoad *) destruct (h_open s) eqn:O.
    + eapply (goes_on cfg f q q i t (GTake tmo)); [exact Hi|reflexivity|apply Nat.le_refl|eapply rel_any; [exact R|..]; reflexivity|discriminate|exact O|reflexivity|]. intros x y. exists x, y. reflexivity.
    + eapply (goes_end cfg f q q i t {| t_pc := Idle; t_lent := t_lent t |} (OErr ClosedPoolError) true true); [exact Hi|reflexivity|reflexivity|apply Nat.le_refl|eapply rel_any; [exact R|..]; reflexivity|reflexivity| |]; [discriminate|]. cbn. unfold get_conn. now rewrite RF.
  - (* GTake *) rewrite M in RF. destruct (h_queue s) as [|c x] eqn:Q.
    + destruct (block cfg) eqn:B.
      * destruct (tmo && b); [|rewrite <- Ep; apply goes_stays; auto; rewrite Ep; auto].
        eapply (goes_end cfg f q q i t {| t_pc := Idle; t_lent := t_lent t |} (OErr EmptyPoolError) true true); [exact Hi|reflexivity|reflexivity|apply Nat.le_refl|eapply rel_any; [exact R|..]; reflexivity|reflexivity| |]; [discriminate|]. cbn. unfold get_conn. now rewrite RF, B.
      * eapply (goes_on cfg f q q i t (NCheck ForCaller)); [exact Hi|reflexivity|apply Nat.le_refl|eapply rel_any; [exact R|..]; reflexivity|discriminate|exact Logic.I|reflexivity|]. intros x y. exists x, y. cbn. unfold get_conn, new_conn, f_check, f_make. rewrite RF. cbn. rewrite B.
        destruct (max_connections cfg <=? p_num q); [reflexivity|]. destruct x; unfold with_made, with_num; cbn; now rewrite ?RF.
    + eapply (goes_on cfg f q (set_free q (Some (map f x))) i t (GSizeLoad c)); [exact Hi|reflexivity|apply Nat.le_refl|eapply rel_queue; [exact R|exact M|..]; reflexivity|discriminate|exact M|reflexivity|]. intros mkb y. exists mkb, y. cbn. unfold get_conn, f_size, f_check, f_make, new_conn. rewrite RF. cbn [map].
      destruct (len (map f x) <? min_free cfg); [|unfold f_drop, dropped; destruct (y || _); reflexivity]. cbn [p_num set_free]. destruct (max_connections cfg <=? p_num q); [reflexivity|]. destruct mkb; [|reflexivity]. unfold f_drop, dropped, with_made, with_num, set_free. cbn [p_free p_num p_attempts p_closed].
      match goal with |- context [put_conn cfg ?a ?n] => generalize (put_conn cfg a n) end. intros p1. destruct (y || mem_nat (f c) (p_closed p1)); reflexivity.
  - (* GSizeLoad *) rewrite M. eapply (goes_on cfg f q q i t (GSize c)); [exact Hi|reflexivity|apply Nat.le_refl|eapply rel_any; [exact R|..]; reflexivity|discriminate|exact M|reflexivity|]. intros x y. exists x, y. reflexivity.
  - (* GSize *) destruct (len (h_queue s) <? min_free cfg) eqn:Z.
    + eapply (goes_on cfg f q q i t (NCheck (ForRefill c))); [exact Hi|reflexivity|apply Nat.le_refl|eapply rel_any; [exact R|..]; reflexivity|discriminate|exact Logic.I|reflexivity|]. intros x y. exists x, y. cbn. unfold f_size. now rewrite len_map, Z.
    + eapply (goes_on cfg f q q i t (GDrop c)); [exact Hi|reflexivity|apply Nat.le_refl|eapply rel_any; [exact R|..]; reflexivity|discriminate|exact Logic.I|reflexivity|]. intros x y. exists x, y. cbn. unfold f_size. now rewrite len_map, Z.
  - (* NCheck *) destruct (lock_free s); [|rewrite <- Ep; apply goes_stays; auto; rewrite Ep; auto]. destruct (max_connections cfg <=? h_num s) eqn:Z.
    + eapply (goes_end cfg f q q i t {| t_pc := Idle; t_lent := t_lent t |} (OErr EmptyPoolError) true true); [exact Hi|reflexivity|reflexivity|apply Nat.le_refl|eapply rel_any; [exact R|..]; reflexivity|reflexivity| |]; [discriminate|]. cbn. unfold f_check. now rewrite RN, Z.
    + eapply (goes_on cfg f q q i t (NLoad w)); [exact Hi|reflexivity|apply Nat.le_refl|eapply rel_any; [exact R|..]; reflexivity|discriminate|exact Logic.I|reflexivity|]. intros x y. exists x, y. cbn. unfold f_check. now rewrite RN, Z.
  - (* NLoad *) eapply (goes_on cfg f q q i t (NStore w (h_num s + 1))); [exact Hi|reflexivity|apply Nat.le_refl|eapply rel_any; [exact R|..]; reflexivity|discriminate|exact Logic.I|reflexivity|]. intros x y. exists x, y. cbn. now rewrite RN.
  - (* NStore *) eapply (goes_on cfg f q (with_num v q) i t (NMake w)); [exact Hi|reflexivity|apply Nat.le_refl|eapply rel_num; [exact R|..]; reflexivity|discriminate|exact Logic.I|reflexivity|]. intros x y. exists x, y. reflexivity.
  - (* NMake *) destruct b.
    + eapply (goes_end cfg f q (with_made q) i t {| t_pc := Idle; t_lent := t_lent t |} (OErr OSError) false true); [exact Hi|reflexivity|reflexivity|apply Nat.le_refl| |reflexivity| |]; [|discriminate|reflexivity].
      constructor; [exact RI|intros c Hc; specialize (RL c Hc); cbn; lia|repeat split; assumption|exact RD].
    + set (g := fun c => if Nat.eqb c (h_made s) then p_attempts q else f c). assert (G : forall c, (c < h_made s)%nat -> g c = f c) by (intros c Hc; unfold g; rewrite (proj2 (Nat.eqb_neq _ _)); [reflexivity|lia]).
      assert (Gm : forall l, (forall c, In c l -> (c < h_made s)%nat) -> map g l = map f l) by (intros l Hl; apply map_ext_in; intros c Hc; apply G, Hl, Hc).
      assert (Gn : g (h_made s) = p_attempts q) by (unfold g; rewrite Nat.eqb_refl; reflexivity).
      assert (RG : forall s', h_made s' = S (h_made s) -> h_open s' = h_open s -> h_queue s' = h_queue s -> h_num s' = h_num s -> h_closed s' = h_closed s -> rel g s' (with_made q)).
      { intros s' E1 E2 E3 E4 E5. constructor.
        - rewrite E1. intros c d Hc Hd E. unfold g in E. destruct (Nat.eqb_spec c (h_made s)), (Nat.eqb_spec d (h_made s)); subst; auto.
          + specialize (RL d ltac:(lia)). lia. + specialize (RL c ltac:(lia)). lia. + apply RI; auto; lia.
        - rewrite E1. intros c Hc. unfold g. cbn. destruct (Nat.eqb_spec c (h_made s)); [lia|]. specialize (RL c ltac:(lia)). lia.
        - unfold same_pool. rewrite E2, E3, E4, E5. cbn. rewrite !Gm; auto. intros c. apply queue_low, P.
        - rewrite E1, E5. intros c Hc. specialize (RD c Hc). lia. }
      destruct w as [|c].
      * exists g, (with_made q), {| t_pc := Idle; t_lent := h_made s :: t_lent t |}. split; [exact (nth_updt_same _ _ _ _ Hi)|]. split; [exact G|]. split; [cbn; lia|]. split; [apply RG; reflexivity|]. left. split; [reflexivity|].
        exists (OGot (h_made s)), true, true. split; [reflexivity|]. split; [intros c E; injection E as <-; cbn; lia|]. cbn. now rewrite Gn.
      * exists g, (with_made q), {| t_pc := PLoad (ToGet c) (h_made s); t_lent := t_lent t |}. split; [exact (nth_updt_same _ _ _ _ Hi)|]. split; [exact G|]. split; [cbn; lia|]. split; [apply RG; reflexivity|]. right. split; [discriminate|]. split; [exact Logic.I|]. split; [reflexivity|].
        intros x y. exists true, y. cbn. rewrite Gn, G by (apply Lo; left; reflexivity). reflexivity.
  - (* PLoad *) destruct (h_open s) eqn:O.
    + eapply (goes_on cfg f q q i t (M_PoolThreads.PPut k c)); [exact Hi|reflexivity|apply Nat.le_refl|eapply rel_any; [exact R|..]; reflexivity|discriminate|exact O|reflexivity|]. intros x y. exists x, y. reflexivity.
    + eapply (goes_on cfg f q q i t (M_PoolThreads.PClose k c)); [exact Hi|reflexivity|apply Nat.le_refl|eapply rel_any; [exact R|..]; reflexivity|discriminate|exact Logic.I|reflexivity|]. intros x y. exists x, y. cbn. unfold put_conn. now rewrite RF.
  - (* PPut *) rewrite M in RF. destruct (q_full cfg (h_queue s)) eqn:Fu.
    + eapply (goes_on cfg f q q i t (PLock k c)); [exact Hi|reflexivity|apply Nat.le_refl|eapply rel_any; [exact R|..]; reflexivity|discriminate|exact Logic.I|reflexivity|]. intros x y. exists x, y. cbn. unfold put_conn. now rewrite RF, full_ren, Fu.
    + eapply (put_back cfg f q (set_free q (Some (map f (c :: h_queue s)))) i t k s (set_queue (c :: h_queue s) s)); [exact Hi|reflexivity|reflexivity|apply Nat.le_refl| |reflexivity|]; [eapply rel_queue; [exact R|exact M|..]; reflexivity|].
      intros y. exists true, y. cbn. unfold put_conn. now rewrite RF, full_ren, Fu.
  - (* PLock *) destruct (lock_free s); [|rewrite <- Ep; apply goes_stays; auto; rewrite Ep; auto].
    eapply (goes_on cfg f q q i t (PDecLoad k c)); [exact Hi|reflexivity|apply Nat.le_refl|eapply rel_any; [exact R|..]; reflexivity|discriminate|exact Logic.I|reflexivity|]. intros x y. exists x, y. reflexivity.
  - (* PDecLoad *) eapply (goes_on cfg f q q i t (PDecStore k c (h_num s - 1))); [exact Hi|reflexivity|apply Nat.le_refl|eapply rel_any; [exact R|..]; reflexivity|discriminate|exact Logic.I|reflexivity|]. intros x y. exists x, y. cbn. rewrite <- RN. reflexivity.
  - (* PDecStore *) eapply (goes_on cfg f q (with_num v q) i t (M_PoolThreads.PClose k c)); [exact Hi|reflexivity|apply Nat.le_refl|eapply rel_num; [exact R|..]; reflexivity|discriminate|exact Logic.I|reflexivity|]. intros x y. exists x, y. reflexivity.
  - (* PClose *) eapply (put_back cfg f q (close_conn q (f c)) i t k s (shut c s)); [exact Hi|reflexivity|reflexivity|apply Nat.le_refl| |reflexivity|]; [eapply rel_shut; [exact R|apply Lo; left; reflexivity|..]; reflexivity|]. intros y. exists true, y. reflexivity.
  - (* GDrop *) assert (Hc : (c < h_made s)%nat) by (apply Lo; left; reflexivity). destruct (b || mem_nat c (h_closed s)) eqn:D.
    + eapply (goes_on cfg f q q i t (GClose c)); [exact Hi|reflexivity|apply Nat.le_refl|eapply rel_any; [exact R|..]; reflexivity|discriminate|exact Logic.I|reflexivity|]. intros x y. exists true, b. cbn. unfold f_drop. rewrite RC, (mem_ren f (h_made s)), D by auto. reflexivity.
    + eapply (goes_end cfg f q q i t {| t_pc := Idle; t_lent := c :: t_lent t |} (OGot c) true b); [exact Hi|reflexivity|reflexivity|apply Nat.le_refl|eapply rel_any; [exact R|..]; reflexivity|reflexivity| |]; [intros d E; injection E as <-; exact Hc|]. cbn. unfold f_drop. rewrite RC, (mem_ren f (h_made s)), D by auto. reflexivity.
  - (* GClose *) eapply (goes_on cfg f q (close_conn q (f c)) i t (GLock c)); [exact Hi|reflexivity|apply Nat.le_refl|eapply rel_shut; [exact R|apply Lo; left; reflexivity|..]; reflexivity|discriminate|exact Logic.I|reflexivity|]. intros x y. exists x, y. reflexivity.
  - (* GLock *) destruct (lock_free s); [|rewrite <- Ep; apply goes_stays; auto; rewrite Ep; auto].
    eapply (goes_on cfg f q q i t (GDecLoad c)); [exact Hi|reflexivity|apply Nat.le_refl|eapply rel_any; [exact R|..]; reflexivity|discriminate|exact Logic.I|reflexivity|]. intros x y. exists x, y. reflexivity.
  - (* GDecLoad *) eapply (goes_on cfg f q q i t (GDecStore c (h_num s - 1))); [exact Hi|reflexivity|apply Nat.le_refl|eapply rel_any; [exact R|..]; reflexivity|discriminate|exact Logic.I|reflexivity|]. intros x y. exists x, y. cbn. rewrite <- RN. reflexivity.
  - (* GDecStore *) eapply (goes_end cfg f q (with_num v q) i t {| t_pc := Idle; t_lent := c :: t_lent t |} (OGot c) true true); [exact Hi|reflexivity|reflexivity|apply Nat.le_refl| |reflexivity| |reflexivity]; [eapply rel_num; [exact R|..]; reflexivity|]. intros d E. injection E as <-. apply Lo. left. reflexivity.
  - (* CLoad *) eapply (goes_on cfg f q q i t (CStore (h_open s))); [exact Hi|reflexivity|apply Nat.le_refl|eapply rel_any; [exact R|..]; reflexivity|discriminate|reflexivity|reflexivity|]. intros x y. exists x, y. cbn. unfold pool_close. rewrite RF. destruct (h_open s); reflexivity.
  - (* CStore *) eapply (goes_on cfg f q {| p_free := None; p_num := p_num q; p_attempts := p_attempts q; p_closed := p_closed q |} i t (CDrain was)); [exact Hi|reflexivity|apply Nat.le_refl| |discriminate|reflexivity|reflexivity|].
    + constructor; [exact RI|exact RL|repeat split; cbn; assumption|exact RD].
    + intros x y. exists x, y. cbn. destruct was; [reflexivity|]. rewrite <- M in RF. destruct q. cbn in *. now rewrite RF.
  - (* CDrain *) rewrite M in RF. destruct was.
    + destruct (h_queue s) as [|c x] eqn:Q.
      * eapply (goes_end cfg f q q i t {| t_pc := Idle; t_lent := t_lent t |} ODone true true); [exact Hi|reflexivity|reflexivity|apply Nat.le_refl|eapply rel_any; [exact R|..]; reflexivity|reflexivity| |]; [discriminate|]. rewrite Q. cbn. unfold with_shut. rewrite app_nil_r, <- RF. destruct q; reflexivity.
      * eapply (goes_on cfg f q q i t (CShut c)); [exact Hi|reflexivity|apply Nat.le_refl| |discriminate|exact M|reflexivity|].
        -- constructor; [exact RI|exact RL|repeat split; cbn; try assumption; now rewrite M|exact RD].
        -- intros x1 y. exists x1, y. rewrite Q. reflexivity.
    + eapply (goes_end cfg f q q i t {| t_pc := Idle; t_lent := t_lent t |} (OErr AttributeError) true true); [exact Hi|reflexivity|reflexivity|apply Nat.le_refl|eapply rel_any; [exact R|..]; reflexivity|reflexivity| |reflexivity]. discriminate.
  - (* CShut *) eapply (goes_on cfg f q (close_conn q (f c)) i t (CDrain true)); [exact Hi|reflexivity|apply Nat.le_refl|eapply rel_shut; [exact R|apply Lo; left; reflexivity|..]; reflexivity|discriminate|exact M|reflexivity|]. intros x y. exists x, y. cbn. unfold with_shut. cbn. now rewrite <- app_assoc.
Qed.

(** ** Whole histories *)
Lemma begun_app cfg : forall l s o, begun cfg s (l ++ [o]) = begun cfg s l ++ begins (fold_left (fun s o => t_step cfg o s) l s) o.
Proof. induction l as [|x l IH]; intros s o; cbn; [now rewrite app_nil_r|]. rewrite IH. now rewrite app_assoc. Qed.
Lemma s_run_app cfg : forall l o p q r q' y, s_run cfg l p = (q, r) -> s_do cfg o q = (q', y) -> s_run cfg (l ++ [o]) p = (q', r ++ [y]).
Proof.
  induction l as [|x l IH]; intros o p q r q' y H D; cbn in *; [injection H as <- <-; now rewrite D|]. destruct (s_do cfg x p) as (p1, z). destruct (s_run cfg l p1) as (p2, zs) eqn:E. injection H as <- <-. now rewrite (IH o p1 p2 zs q' y E D).
Qed.
Definition low_op (n : nat) (a : asked) : Prop := match a with APut c => (c < n)%nat | _ => True end.
Definition low_out (n : nat) (x : nat * outcome) : Prop := match snd x with OGot c => (c < n)%nat | _ => True end.
Lemma same_op_ext f g n o a : (forall c, (c < n)%nat -> g c = f c) -> low_op n a -> same_op f o a -> same_op g o a.
Proof. intros G L H. destruct o, a; cbn in *; auto. now rewrite G. Qed.
Lemma same_ops_ext f g n ops l : (forall c, (c < n)%nat -> g c = f c) -> Forall (low_op n) l -> Forall2 (same_op f) ops l -> Forall2 (same_op g) ops l.
Proof. intros G L H. induction H as [|o a ops l H1 H2 IH]; [constructor|]. inversion L; subst. constructor; [now apply (same_op_ext f g n)|auto]. Qed.
Lemma named_ext f g n l : (forall c, (c < n)%nat -> g c = f c) -> Forall (low_out n) l -> map (fun x => named g (snd x)) l = map (fun x => named f (snd x)) l.
Proof. intros G L. induction L as [|(i, o) l H L IH]; [reflexivity|]. cbn. rewrite IH. f_equal. destruct o; cbn in *; auto. Qed.
Lemma low_le n m l : (n <= m)%nat -> Forall (low_op n) l -> Forall (low_op m) l.
Proof. intros H. apply Forall_impl. intros [|c|]; cbn; auto. lia. Qed.
Lemma out_le n m l : (n <= m)%nat -> Forall (low_out n) l -> Forall (low_out m) l.
Proof. intros H. apply Forall_impl. intros (i, [c| |e]); unfold low_out; cbn; auto. lia. Qed.

Record inv (cfg : config) (p : pool) (s : ts) (bg : list asked) (ops : list sop) (f : nat -> nat) (q0 q : pool) : Prop := {
  i_rel : rel f s q;
  i_run : s_run cfg ops p = (q0, map (fun x => named f (snd x)) (h_log s));
  i_out : Forall (low_out (h_made s)) (h_log s);
  i_ops : Forall (low_op (h_made s)) bg;
  i_now : (q0 = q /\ (forall i t, nth_error (h_threads s) i = Some t -> t_pc t = Idle) /\ Forall2 (same_op f) ops bg) \/
    exists i t a bg', nth_error (h_threads s) i = Some t /\ t_pc t <> Idle /\ mid s (t_pc t) /\ bg = bg' ++ [a] /\ Forall2 (same_op f) ops bg' /\
      forall x y, exists o, same_op f o a /\ s_do cfg o q0 = fin cfg x y (map f (h_queue s)) (ren f (t_pc t)) q }.

(** steps that change nothing but who has which connection *)
Lemma inv_same cfg p s s' bg ops f q0 q : inv cfg p s bg ops f q0 q -> h_made s' = h_made s -> h_open s' = h_open s -> h_queue s' = h_queue s -> h_num s' = h_num s -> h_closed s' = h_closed s -> h_log s' = h_log s ->
  map t_pc (h_threads s') = map t_pc (h_threads s) -> inv cfg p s' bg ops f q0 q.
Proof.
  intros [R U O B N] E1 E2 E3 E4 E5 E6 E7. assert (T : forall i, option_map t_pc (nth_error (h_threads s') i) = option_map t_pc (nth_error (h_threads s) i)) by (intros i; rewrite <- !nth_error_map, E7; reflexivity).
  constructor; [eapply rel_any; eauto|now rewrite E6|now rewrite E1, E6|now rewrite E1|]. destruct N as [(-> & I & F)|(i & t & a & bg' & Hi & Nt & M & -> & F & X)].
  - left. split; [reflexivity|]. split; [|exact F]. intros i t Hi. specialize (T i). rewrite Hi in T. destruct (nth_error (h_threads s) i) as [u|] eqn:Hu; [|discriminate]. cbn in T. injection T as ->. eauto.
  - right. specialize (T i). rewrite Hi in T. destruct (nth_error (h_threads s') i) as [u|] eqn:Hu; [|discriminate]. cbn in T. injection T as T. exists i, u, a, bg'. rewrite T, E3. split; [exact Hu|]. split; [exact Nt|]. split; [destruct (t_pc t); cbn in *; auto; congruence|]. auto.
Qed.
Lemma pcs_updt i t u l : nth_error l i = Some t -> t_pc u = t_pc t -> map t_pc (updt i u l) = map t_pc l.
Proof. revert i. induction l as [|x l IH]; intros [|i] H E; cbn in *; try discriminate; [injection H as ->; now rewrite E|]. f_equal. eauto. Qed.
Lemma ready_idle t : ready t = true <-> t_pc t = Idle.
Proof. unfold ready. destruct (t_pc t); split; intros; congruence. Qed.

(** an operation begins *)
Lemma inv_begin cfg p s bg ops f q i t pc a x : inv cfg p s bg ops f q q -> (forall i t, nth_error (h_threads s) i = Some t -> t_pc t = Idle) -> Forall2 (same_op f) ops bg -> nth_error (h_threads s) i = Some t -> pc <> Idle -> mid s pc -> low_op (h_made s) a ->
  (forall mkb y, exists o, same_op f o a /\ s_do cfg o q = fin cfg mkb y (map f (h_queue s)) (ren f pc) q) -> inv cfg p (set_thr i {| t_pc := pc; t_lent := x |} s) (bg ++ [a]) ops f q q.
Proof.
  intros [R U O B N] I F Hi Np M La H. constructor; [eapply rel_any; [exact R|..]; reflexivity|exact U|exact O|apply Forall_app; split; [exact B|constructor; [exact La|constructor]]|]. right.
  exists i, {| t_pc := pc; t_lent := x |}, a, bg. split; [exact (nth_updt_same _ _ _ _ Hi)|]. split; [exact Np|]. split; [exact M|]. auto.
Qed.

Lemma inv_step cfg p s bg ops f q0 q o : one_place s -> inv cfg p s bg ops f q0 q ->
  (forall i j t u, nth_error (h_threads s) i = Some t -> nth_error (h_threads s) j = Some u -> t_pc t <> Idle -> t_pc u <> Idle -> i = j) ->
  (forall i j t u, nth_error (h_threads (t_step cfg o s)) i = Some t -> nth_error (h_threads (t_step cfg o s)) j = Some u -> t_pc t <> Idle -> t_pc u <> Idle -> i = j) ->
  exists ops' f' q0' q', inv cfg p (t_step cfg o s) (bg ++ begins s o) ops' f' q0' q'.
Proof.
  intros P V A A'. pose proof A as Al. assert (Same : inv cfg p s (bg ++ []) ops f q0 q) by (rewrite app_nil_r; exact V).
  (* a thread that begins an operation: nobody else is in one *)
  assert (Begin : forall i t pc x, nth_error (h_threads s) i = Some t -> t_pc t = Idle -> pc <> Idle -> t_step cfg o s = set_thr i {| t_pc := pc; t_lent := x |} s ->
    q0 = q /\ (forall i t, nth_error (h_threads s) i = Some t -> t_pc t = Idle) /\ Forall2 (same_op f) ops bg).
  { intros i t pc x Hi It Np Es. destruct V as [R U O B [N|(j & u & a & bg' & Hj & Nu & _)]]; [exact N|]. exfalso. assert (Nij : i <> j) by (intros ->; rewrite Hi in Hj; injection Hj as ->; contradiction).
    apply Nij. rewrite Es in A'. refine (A' i j {| t_pc := pc; t_lent := x |} u _ _ Np Nu); cbn; [exact (nth_updt_same _ _ _ _ Hi)|]. rewrite nth_updt_other by exact Nij. exact Hj. }
  destruct o as [i tmo|i c|i|i b|i j c]; cbn [begins].
  - cbn [t_step] in *. destruct (nth_error (h_threads s) i) as [t|] eqn:Hi; [|eauto]. unfold begin in *. unfold ready. destruct (t_pc t) eqn:It; eauto. destruct (Begin i t (GLoad tmo) (t_lent t) Hi It ltac:(discriminate) eq_refl) as (-> & I & F).
    exists ops, f, q, q. apply (inv_begin cfg p s bg ops f q i t (GLoad tmo) AGet (t_lent t)); auto; try discriminate; try exact Logic.I. intros mkb y. exists (SGet (fun _ => mkb) (fun _ => y)). split; [exact Logic.I|reflexivity].
  - cbn [t_step] in *. destruct (nth_error (h_threads s) i) as [t|] eqn:Hi; [|eauto]. unfold ready. destruct (t_pc t) eqn:It; eauto. destruct (mem_nat c (t_lent t)) eqn:Mc; cbn [andb]; [|eauto]. destruct (Begin i t (PLoad ToCaller c) (drop c (t_lent t)) Hi It ltac:(discriminate) eq_refl) as (-> & I & F).
    exists ops, f, q, q. assert (Lc : (c < h_made s)%nat).
    { apply (lent_low s i t c P Hi). unfold mem_nat in Mc. apply existsb_exists in Mc as (d & Hd & E). apply Nat.eqb_eq in E as <-. exact Hd. }
    apply (inv_begin cfg p s bg ops f q i t (PLoad ToCaller c) (APut c) (drop c (t_lent t))); auto; try discriminate; try exact Logic.I. intros mkb y. exists (SPut (f c)). split; reflexivity.
  - cbn [t_step] in *. destruct (nth_error (h_threads s) i) as [t|] eqn:Hi; [|eauto]. unfold begin in *. unfold ready. destruct (t_pc t) eqn:It; eauto. destruct (Begin i t CLoad (t_lent t) Hi It ltac:(discriminate) eq_refl) as (-> & I & F).
    exists ops, f, q, q. apply (inv_begin cfg p s bg ops f q i t CLoad AClose (t_lent t)); auto; try discriminate; try exact Logic.I. intros mkb y. exists SClose. split; [exact Logic.I|reflexivity].
  - cbn [t_step] in *. destruct (nth_error (h_threads s) i) as [t|] eqn:Hi; [|eauto]. destruct (ready t) eqn:It; [apply ready_idle in It; unfold go; rewrite It; eauto|].
    assert (Nt : t_pc t <> Idle) by (intros E; apply ready_idle in E; congruence). rewrite app_nil_r.
    destruct V as [R U O B [(-> & I & F)|(j & u & a & bg' & Hj & Nu & M & -> & F & X)]]; [exfalso; exact (Nt (I i t Hi))|].
    assert (j = i) by (exact (A j i u t Hj Hi Nu Nt)). subst j. assert (u = t) by congruence. subst u. clear A Same Begin.
    destruct (go_sim cfg f q i b t s P R Hi Nt M) as (f' & q' & t' & Hi' & Ef & Hm & R' & [(It' & out & x & y & El & Lo & Fi)|(Nt' & M' & El & Fi)]).
    + destruct (X x y) as (op & So & Do). rewrite Fi in Do. exists (ops ++ [op]), f', q', q'. constructor; [exact R'| | | |].
      * rewrite El, map_app. cbn [map snd]. apply (s_run_app cfg ops op p q0); [|exact Do]. rewrite (named_ext f f' (h_made s)); auto.
      * rewrite El. apply Forall_app. split; [exact (out_le _ _ _ Hm O)|]. constructor; [|constructor]. unfold low_out. cbn. destruct out; auto.
      * exact (low_le _ _ _ Hm B).
      * left. split; [reflexivity|]. split.
        -- intros j u Hj'. destruct (Nat.eq_dec i j) as [<-|Nij]; [congruence|]. destruct (threads_shape cfg i b t s) as [E|(t2 & E)]; rewrite E in Hj'.
           ++ destruct (ready u) eqn:Ru; [now apply ready_idle|]. exfalso. rewrite E in Hi'. rewrite Hi in Hi'. injection Hi' as ->. contradiction.
           ++ rewrite nth_updt_other in Hj' by exact Nij. destruct (ready u) eqn:Ru; [now apply ready_idle|]. exfalso. apply Nij. apply (Al i j t u); auto. intros E2. apply ready_idle in E2. congruence.
        -- apply Forall2_app; [|constructor; [|constructor]]; [apply (same_ops_ext f f' (h_made s)); auto; apply Forall_app in B as (B & _); exact B|]. apply (same_op_ext f f' (h_made s)); auto. apply Forall_app in B as (_ & B). now inversion B.
    + exists ops, f', q0, q'. constructor; [exact R'| | | |].
      * rewrite El, (named_ext f f' (h_made s)); auto.
      * rewrite El. exact (out_le _ _ _ Hm O).
      * exact (low_le _ _ _ Hm B).
      * right. exists i, t', a, bg'. split; [exact Hi'|]. split; [exact Nt'|]. split; [exact M'|]. split; [reflexivity|]. apply Forall_app in B as (B1 & B2). split; [apply (same_ops_ext f f' (h_made s)); auto|].
        intros x2 y2. destruct (Fi x2 y2) as (x & y & E). destruct (X x y) as (op & So & Do). exists op. split; [apply (same_op_ext f f' (h_made s)); auto; now inversion B2|]. now rewrite Do, E.
  - cbn [t_step] in *. rewrite app_nil_r in *. destruct (nth_error (h_threads s) i) as [t|] eqn:Hi; [|eauto]. destruct (nth_error (h_threads s) j) as [u|] eqn:Hj; [|eauto]. destruct (mem_nat c (t_lent t) && negb (Nat.eqb i j)) eqn:E; [|eauto]. apply andb_true_iff in E as (_ & E). apply negb_true_iff, Nat.eqb_neq in E.
    exists ops, f, q0, q. eapply inv_same; [exact V|reflexivity|reflexivity|reflexivity|reflexivity|reflexivity|reflexivity|]. cbn. rewrite (pcs_updt j u); [|rewrite nth_updt_other by exact E; exact Hj|reflexivity]. apply (pcs_updt i t); auto.
Qed.
Lemma fill_shape cfg mk n : forall p p', (exists x, p_free p = Some x) -> p_closed p = [] -> fill cfg mk n p = Built p' -> (exists x, p_free p' = Some x) /\ p_closed p' = [].
Proof.
  induction n as [|n IH]; intros p p' (x & Hx) Hc H; cbn in H; [injection H as <-; eauto|]. unfold new_conn in H. destruct (max_connections cfg <=? p_num p); [discriminate|]. destruct (mk (p_attempts p)); [|discriminate]. cbn in H. rewrite Hx in H. destruct (q_full cfg x); [discriminate|].
  apply (IH _ p') in H; [exact H|cbn; eauto|exact Hc].
Qed.
Lemma inv_init cfg mk p n : build cfg mk = Built p -> inv cfg p (t_init p n) [] [] (fun c => c) p p.
Proof.
  intros B. assert (Fi : (exists x, p_free p = Some x) /\ p_closed p = []) by (eapply fill_shape; [| |exact B]; cbn; eauto). destruct Fi as ((x & Fx) & Fc). constructor; try constructor; cbn; auto.
  - intros c d _ _ E. exact E.
  - unfold same_pool. cbn. rewrite Fx, Fc, map_id. auto.
  - intros c [].
  - split; [reflexivity|]. split; [|constructor]. intros i t H. apply nth_error_In, repeat_spec in H as ->. reflexivity.
Qed.
Lemma inv_run cfg mk p n l : build cfg mk = Built p -> in_turn cfg p n l -> exists ops f q0 q, inv cfg p (t_run cfg p n l) (begun cfg (t_init p n) l) ops f q0 q.
Proof.
  intros B. induction l as [|o l IH] using rev_ind; intros T; [exists [], (fun c => c), p, p; exact (inv_init cfg mk p n B)|].
  destruct IH as (ops & f & q0 & q & V); [intros l1 l2 ->; apply (T l1 (l2 ++ [o])); now rewrite app_assoc|]. rewrite begun_app. fold (t_run cfg p n l). rewrite t_app. cbn [fold_left].
  apply (inv_step cfg p _ _ ops f q0 q o); [exact (run_place cfg mk p n l B)|exact V|apply (T l [o] eq_refl)|]. pose proof (T (l ++ [o]) [] (eq_sym (app_nil_r _))) as T2. rewrite t_app in T2. exact T2.
Qed.
Lemma s_run_len cfg : forall l p, List.length (snd (s_run cfg l p)) = List.length l.
Proof. induction l as [|o l IH]; intros p; cbn; [reflexivity|]. destruct (s_do cfg o p) as (p1, x). specialize (IH p1). destruct (s_run cfg l p1) as (p2, xs). cbn in *. now rewrite IH. Qed.
Lemma Forall2_len {A B} (P : A -> B -> Prop) l m : Forall2 P l m -> List.length l = List.length m.
Proof. intros H. induction H; cbn; congruence. Qed.
Lemma serial_runs cfg mk p n l : build cfg mk = Built p -> in_turn cfg p n l -> as_one_thread cfg p n l.
Proof.
  intros B T. destruct (inv_run cfg mk p n l B T) as (ops & f & q0 & q & [R U O P N]). exists ops, f, q0. cbn zeta. set (s := t_run cfg p n l) in *. set (bg := begun cfg (t_init p n) l) in *.
  assert (L : List.length ops = List.length (h_log s)) by (rewrite <- (s_run_len cfg ops p), U; cbn; now rewrite map_length).
  split; [apply R|]. destruct N as [(-> & I & F)|(i & t & a & bg' & Hi & Nt & _ & E & F & _)].
  - pose proof (Forall2_len _ _ _ F) as L2. rewrite <- L, L2, firstn_all. split; [exact F|]. split; [exact U|]. intros _. split; [lia|apply R].
  - pose proof (Forall2_len _ _ _ F) as L2. rewrite E, <- L, L2, firstn_app, firstn_all, Nat.sub_diag. cbn [firstn]. rewrite app_nil_r. split; [exact F|]. split; [exact U|]. intros I. exfalso. exact (Nt (I i t Hi)).
Qed.

(** ** Overlapping operations *)
Definition tight : config := {| max_connections := 1; max_free := 1; min_free := 0; initial := 0; block := false |}.
Definition overlapping : list tstep := [TGet 0 false; TGet 1 false] ++ repeat (TStep 0 false) 3 ++ repeat (TStep 1 false) 3 ++ repeat (TStep 0 false) 3 ++ repeat (TStep 1 false) 3.
Lemma overlapping_two mk p : build tight mk = Built p -> h_log (t_run tight p 2 overlapping) = [(0, OGot 0); (1, OGot 1)]%nat.
Proof. intros B. injection B as <-. vm_compute. reflexivity. Qed.
Lemma not_one_thread mk p : build tight mk = Built p -> ~ as_one_thread tight p 2 overlapping.
Proof.
  intros B (ops & f & q & H). cbn zeta in H. rewrite (overlapping_two mk p B) in H. injection B as <-. destruct H as (_ & F & U & _).
  match type of F with Forall2 _ _ ?x => let y := eval vm_compute in x in change x with y in F end. inversion F as [|o1 a1 l1 r1 S1 F1]; subst. inversion F1 as [|o2 a2 l2 r2 S2 F2]; subst. inversion F2; subst. destruct o1, o2; try contradiction.
  cbn in U. unfold get_conn at 1, new_conn at 1 in U. cbn in U. destruct (mk0 0%nat); discriminate.
Qed.

(** ** A check that operations do not overlap *)
Fixpoint in_ops (l : list thr) : nat := match l with [] => 0%nat | t :: r => if ready t then in_ops r else S (in_ops r) end.
Lemma in_ops_one l : forall i t, nth_error l i = Some t -> t_pc t <> Idle -> (1 <= in_ops l)%nat.
Proof. induction l as [|u l IH]; intros [|i] t H N; cbn in *; try discriminate. - injection H as ->. destruct (ready t) eqn:E; [apply ready_idle in E; contradiction|lia]. - destruct (ready u); [eauto|lia]. Qed.
Lemma in_ops_alone l : (in_ops l <= 1)%nat -> forall i j t u, nth_error l i = Some t -> nth_error l j = Some u -> t_pc t <> Idle -> t_pc u <> Idle -> i = j.
Proof.
  induction l as [|v l IH]; intros Le [|i] [|j] t u Hi Hj Nt Nu; cbn in *; try discriminate; auto.
  - injection Hi as ->. destruct (ready t) eqn:E; [apply ready_idle in E; contradiction|]. pose proof (in_ops_one l j u Hj Nu). lia.
  - injection Hj as ->. destruct (ready u) eqn:E; [apply ready_idle in E; contradiction|]. pose proof (in_ops_one l i t Hi Nt). lia.
  - f_equal. eapply IH; eauto. destruct (ready v); lia.
Qed.
Fixpoint turns (cfg : config) (s : ts) (l : list tstep) : bool := Nat.leb (in_ops (h_threads s)) 1 && match l with [] => true | o :: r => turns cfg (t_step cfg o s) r end.
Lemma turns_ok cfg p n l : turns cfg (t_init p n) l = true -> in_turn cfg p n l.
Proof.
  unfold in_turn, t_run. generalize (t_init p n) as s. induction l as [|o l IH]; intros s H l1 l2 E.
  - symmetry in E. apply app_eq_nil in E as (-> & _). cbn in *. apply andb_true_iff in H as (H & _). apply Nat.leb_le in H. exact (in_ops_alone _ H).
  - cbn in H. apply andb_true_iff in H as (H & H2). destruct l1 as [|o1 l1]; cbn in E |- *; [apply Nat.leb_le in H; exact (in_ops_alone _ H)|]. injection E as <- E. exact (IH _ H2 l1 l2 E).
Qed.
