(** LSet2.v -- interrupted settings are settings followed, or preceded, by interrupts (for C99) *)
From Verif Require Import SpecSet LIsr LReent LStep PUp PIrq PStrict LSplit LSet Prop_Isr.
Open Scope m_scope.
Local Opaque ind loc.

(** ** uwan_init: nothing happens once the state is IDLE *)
Definition kst {A} (m : C A) : Prop := forall h s a s' es, m h s = Ok (a, s', es) -> uw_state (s_stk s') = uw_state (s_stk s).
Lemma kst_ret {A} (a : A) : kst (ret a). Proof. intros h s r s' es H. injection H as _ <- _. reflexivity. Qed.
Lemma kst_fail {A} k : kst (@fail st ev A k). Proof. intros h s r s' es H. discriminate H. Qed.
Lemma kst_gets {A} (f : st -> A) : kst (gets f). Proof. intros h s r s' es H. injection H as _ <- _. reflexivity. Qed.
Lemma kst_emit e : kst (emit e). Proof. intros h s r s' es H. inversion H. reflexivity. Qed.
Lemma kst_query {A} (o : list ev -> A) k : kst (query o k). Proof. intros h s r s' es H. inversion H. reflexivity. Qed.
Lemma kst_modify f : (forall s, uw_state (s_stk (f s)) = uw_state (s_stk s)) -> kst (@modify st ev f).
Proof. intros K h s r s' es H. inversion H. apply K. Qed.
Lemma kst_bind {A B} (m : C A) (f : A -> C B) : kst m -> (forall a, kst (f a)) -> kst (bind m f).
Proof.
  intros Hm Hf h s r s' es H. unfold bind in H. destruct (m h s) as [[[x s1] e1]|] eqn:Em; [|discriminate].
  destruct (f x (h ++ e1) s1) as [[[y s2] e2]|] eqn:Ef; [|discriminate]. injection H as _ <- _.
  rewrite (Hf _ _ _ _ _ _ Ef). exact (Hm _ _ _ _ _ Em).
Qed.
Ltac kst := repeat match goal with
  | |- kst (bind _ _) => apply kst_bind; [|intro]
  | |- kst (ret _) => apply kst_ret
  | |- kst (fail _) => apply kst_fail
  | |- kst (gets _) => apply kst_gets
  | |- kst (emit _) => apply kst_emit
  | |- kst (query _ _) => apply kst_query
  | |- kst (modify _) => apply kst_modify; intro; reflexivity
  | |- kst (match ?x with _ => _ end) => destruct x
  | |- kst (let _ := _ in _) => cbv zeta
  | |- kst _ => progress unfold arr_get, arr_set, arr_memcpy, get_stk, mod_stk, get_ses, mod_ses, get_mac, mod_mac, get_ch, mod_ch, mod_params, bit_is_set, bit_set, bit_clear,
      mac_init, channels_init, utils_random_init, region_init, eu868_init, ru864_init, uwan_set_channel, uwan_enable_channel, uwan_set_rx2, uwan_set_rx1_delay, uwan_set_rx1_dr_offset
  end.
Lemma kst_rmax n : forall i, kst (recompute_max n i).
Proof. induction n as [|n IH]; intro i; cbn [recompute_max]; kst; apply IH. Qed.
Lemma kst_enable i b : kst (uwan_enable_channel i b). Proof. kst. apply kst_rmax. Qed.
Lemma kst_channel i f : kst (uwan_set_channel i f). Proof. unfold uwan_set_channel. kst; apply kst_rmax. Qed.
Lemma kst_region r : kst (region_init r).
Proof. destruct r; unfold region_init, eu868_init, ru864_init; repeat (apply kst_bind; [first [apply kst_channel|kst]|intro]); apply kst_ret. Qed.
Section Init.
Context (E : env) (I : strikes) (HI : hw_only I).
Definition eqi {A} (f g : C A) : Prop := forall h s, uw_state (s_stk s) = IDLE -> f h s = g h s.
Lemma eqi_refl {A} (f : C A) : eqi f f. Proof. intros h s _. reflexivity. Qed.
Lemma eqi_bind {A B} (m : C A) (f g : A -> C B) : kst m -> (forall a, eqi (f a) (g a)) -> eqi (bind m f) (bind m g).
Proof. intros K H h s L. apply LReent.bind_ext; [reflexivity|]. intros a s1 e1 X. apply H. rewrite (K _ _ _ _ _ X). exact L. Qed.
Lemma eqi_isr {A} n (f g : C A) : eqi f g -> eqi (isr E I n ;;; f) g.
Proof. intros H h s L. erewrite bind_ok0; [exact (H h s L)|]. apply calls_idle; [apply HI|exact L]. Qed.
Lemma init_isr r h s : uwan_init_isr E I r h s = uwan_init E r h s.
Proof.
  unfold uwan_init_isr, uwan_init. unfold mod_stk at 1 3. rewrite !(bind_modify (on_stk (set_uw_state IDLE))). cbv beta.
  assert (L : forall t, uw_state (s_stk (on_stk (set_uw_state IDLE) t)) = IDLE) by reflexivity. generalize (L s). generalize (on_stk (set_uw_state IDLE) s). clear L s. intros s L.
  match goal with |- ?f h s = ?g h s => enough (X : eqi f g) by (apply X; exact L) end.
  apply eqi_isr. repeat (apply eqi_bind; [first [apply kst_region|kst]|intro; try apply eqi_isr]). apply eqi_refl.
Qed.
End Init.

(** ** The laws of the parts *)
Lemma eui1 x s : g_eui (p_eui x s) = x. Proof. destruct x as [[] [? []]]. reflexivity. Qed.
Lemma eui2 x y s : p_eui x (p_eui y s) = p_eui x s. Proof. reflexivity. Qed.
Lemma eui3 s : p_eui (g_eui s) s = s. Proof. destruct s as [[] [] [] [] [] []]. reflexivity. Qed.
Lemma any4 {X} (put : X -> st -> st) x s : anyst s -> anyst (put x s). Proof. intro. exact Logic.I. Qed.
Lemma ch1 x s : g_ch (p_ch x s) = x. Proof. reflexivity. Qed.
Lemma ch2 x y s : p_ch x (p_ch y s) = p_ch x s. Proof. reflexivity. Qed.
Lemma ch3 s : p_ch (g_ch s) s = s. Proof. destruct s as [[] [] [] [] [] []]. reflexivity. Qed.
Lemma nb1 x s : g_nb (p_nb x s) = x. Proof. destruct x. reflexivity. Qed.
Lemma nb2 x y s : p_nb x (p_nb y s) = p_nb x s. Proof. reflexivity. Qed.
Lemma nb3 s : p_nb (g_nb s) s = s. Proof. destruct s as [[] [] [] [] [] []]. reflexivity. Qed.
Lemma ses1 x s : g_ses (p_ses x s) = x. Proof. destruct x. reflexivity. Qed.
Lemma ses2 x y s : p_ses x (p_ses y s) = p_ses x s. Proof. reflexivity. Qed.
Lemma ses3 s : p_ses (g_ses s) s = s. Proof. destruct s as [[] [] [] [] [] []]. reflexivity. Qed.
Lemma ses4 x s : offset0 s -> offset0 (p_ses x s). Proof. intro H. exact H. Qed.
Lemma rxa x s : g_rx2 (p_rx2 x s) = x. Proof. destruct x. reflexivity. Qed.
Lemma rxb x y s : p_rx2 x (p_rx2 y s) = p_rx2 x s. Proof. reflexivity. Qed.
Lemma rxc s : p_rx2 (g_rx2 s) s = s. Proof. destruct s as [[] [] [] [] [] []]. reflexivity. Qed.
Lemma loc_ch_mod f : loc g_ch p_ch (mod_ch f).
Proof. apply loc_modify. intros s s2 Q. destruct s2 as [? ? ? ? ? ?]. unfold g_ch, p_ch in *. cbn in *. subst. reflexivity. Qed.
Lemma loc_ch_get {A} (f : chans -> A) : loc g_ch p_ch (get_ch f).
Proof. apply loc_gets; [exact ch3|]. unfold g_ch. intros s s2 Q. rewrite Q. reflexivity. Qed.
Ltac locch := repeat match goal with
  | |- loc _ _ (bind _ _) => apply (loc_bind _ _ ch1 ch2); [|intro]
  | |- loc _ _ (ret _) => apply loc_ret; exact ch3
  | |- loc _ _ (fail _) => apply loc_fail
  | |- loc _ _ (mod_ch _) => apply loc_ch_mod
  | |- loc _ _ (get_ch _) => apply loc_ch_get
  | |- loc _ _ (match ?x with _ => _ end) => destruct x
  | |- loc _ _ _ => progress unfold arr_get, arr_set, bit_is_set, bit_set, bit_clear
  end.
Lemma loc_rmax n : forall i, loc g_ch p_ch (recompute_max n i).
Proof. induction n as [|n IH]; intro i; cbn [recompute_max]; locch; apply IH. Qed.
Lemma loc_enable i b : loc g_ch p_ch (uwan_enable_channel i b).
Proof. unfold uwan_enable_channel. locch. apply loc_rmax. Qed.
Lemma loc_ses_mod f : loc g_ses p_ses (mod_ses f).
Proof. apply loc_modify. intros s s2 Q. destruct s2 as [? ? ? ? [] ?]. unfold g_ses, p_ses in *. cbn in *. injection Q as Q1 Q2. subst. reflexivity. Qed.
Lemma loc_ses_get {A} (f : session -> A) : loc g_ses p_ses (get_ses f).
Proof. apply loc_gets; [exact ses3|]. unfold g_ses. intros s s2 Q. injection Q as Q _. rewrite Q. reflexivity. Qed.
Lemma loc_ses_dr : loc g_ses p_ses (get_stk default_dr).
Proof. apply loc_gets; [exact ses3|]. unfold g_ses. intros s s2 Q. injection Q as _ Q. exact Q. Qed.
Lemma loc_memcpy {X} (g : st -> X) p a o l n : (forall s, p (g s) s = s) -> loc g p (arr_memcpy a o l n).
Proof. intro H. unfold arr_memcpy. repeat match goal with |- loc _ _ (match ?x with _ => _ end) => destruct x | |- loc _ _ (ret _) => apply loc_ret; exact H | |- _ => apply loc_fail end. Qed.
Lemma loc_seta {X} (g : st -> X) p (a : list Z) o l : (forall s, p (g s) s = s) -> loc g p (arr_set a o l).
Proof. intro H. unfold arr_set. repeat match goal with |- loc _ _ (match ?x with _ => _ end) => destruct x | |- loc _ _ (ret _) => apply loc_ret; exact H | |- _ => apply loc_fail end. Qed.
Lemma loc_dev v : loc g_eui p_eui (mod_stk (set_uw_dev_eui v)).
Proof. apply loc_modify. intros s s2 Q. destruct s2 as [? [] ? ? [] ?]. unfold g_eui, p_eui in *. cbn in *. injection Q as Q1 Q2 Q3 Q4 Q5. subst. reflexivity. Qed.
Lemma loc_app v : loc g_eui p_eui (mod_stk (set_uw_app_eui v)).
Proof. apply loc_modify. intros s s2 Q. destruct s2 as [? [] ? ? [] ?]. unfold g_eui, p_eui in *. cbn in *. injection Q as Q1 Q2 Q3 Q4 Q5. subst. reflexivity. Qed.
Lemma loc_gdev : loc g_eui p_eui (get_stk uw_dev_eui).
Proof. apply loc_gets; [exact eui3|]. unfold g_eui. intros s s2 Q. injection Q as Q _ _ _ _. exact Q. Qed.
Lemma loc_gapp : loc g_eui p_eui (get_stk uw_app_eui).
Proof. apply loc_gets; [exact eui3|]. unfold g_eui. intros s s2 Q. injection Q as _ Q _ _ _. exact Q. Qed.
Lemma loc_txp v : loc g_eui p_eui (mod_stk (set_default_tx_power v)).
Proof. apply loc_modify. intros s s2 Q. destruct s2 as [? [] ? ? [] ?]. unfold g_eui, p_eui in *. cbn in *. injection Q as Q1 Q2 Q3 Q4 Q5. subst. reflexivity. Qed.
Lemma loc_lim v : loc g_eui p_eui (mod_adr (set_ack_limit v)).
Proof. apply loc_modify. intros s s2 Q. destruct s2 as [? [] ? ? [] ?]. unfold g_eui, p_eui in *. cbn in *. injection Q as Q1 Q2 Q3 Q4 Q5. subst. reflexivity. Qed.
Lemma loc_del v : loc g_eui p_eui (mod_adr (set_ack_delay v)).
Proof. apply loc_modify. intros s s2 Q. destruct s2 as [? [] ? ? [] ?]. unfold g_eui, p_eui in *. cbn in *. injection Q as Q1 Q2 Q3 Q4 Q5. subst. reflexivity. Qed.
Lemma loc_rxf v : loc g_rx2 p_rx2 (mod_stk (set_uw_rx2_frequency v)).
Proof. apply loc_modify. intros s s2 Q. destruct s2 as [? ? ? ? [] ?]. unfold g_rx2, p_rx2 in *. cbn in *. injection Q as Q1 Q2. subst. reflexivity. Qed.
Lemma loc_rxd v : loc g_rx2 p_rx2 (mod_stk (set_uw_rx2_dr v)).
Proof. apply loc_modify. intros s s2 Q. destruct s2 as [? ? ? ? [] ?]. unfold g_rx2, p_rx2 in *. cbn in *. injection Q as Q1 Q2. subst. reflexivity. Qed.
Lemma loc_nbu v : loc g_nb p_nb (mod_stk (set_uw_nb_trans v)).
Proof. apply loc_modify. intros s s2 Q. destruct s2 as [? ? ? ? [] ?]. unfold g_nb, p_nb in *. cbn in *. injection Q as Q1 Q2. subst. reflexivity. Qed.
Lemma loc_nbd v : loc g_nb p_nb (mod_stk (set_default_nb_trans v)).
Proof. apply loc_modify. intros s s2 Q. destruct s2 as [? ? ? ? [] ?]. unfold g_nb, p_nb in *. cbn in *. injection Q as Q1 Q2. subst. reflexivity. Qed.

Lemma pass_any {A B D} (m : C A) (f : A -> C D) (g : A -> C B) (k : B -> C D) :
  (forall a, eqv anyst (f a) (bind (g a) k)) -> eqv anyst (bind m f) (bind (bind m g) k).
Proof.
  intros H h s _ r. rewrite bind_assoc. unfold bind at 1. unfold bind at 1.
  destruct (m h s) as [[[a s1] e1]|]; [|reflexivity]. specialize (H a (h ++ e1) s1 Logic.I).
  destruct (f a (h ++ e1) s1) as [[[b s2] e2]|], (bind (g a) k (h ++ e1) s1) as [[[b' s2'] e2']|]; try reflexivity.
  - pose proof (proj1 (H (b, s2, e2)) eq_refl) as K. injection K as -> -> ->. reflexivity.
  - pose proof (proj1 (H (b, s2, e2)) eq_refl) as K. discriminate K.
  - pose proof (proj2 (H (b', s2', e2')) eq_refl) as K. discriminate K.
  - split; discriminate.
Qed.

(** ** The settings *)
Section Settings.
Context (E : env) (I : strikes).
Definition taking {A} (wrap : A -> val) (ops : list op) (x : A) : C A := calls E (if took (wrap x) then ops else []) ;;; ret x.
Lemma otaa_isr d a k : hw_only I -> eqv anyst (uwan_set_otaa_keys_isr E I d a k) (calls E (I 0%nat ++ I 1%nat) ;;; uwan_set_otaa_keys d a k).
Proof.
  intro HI. assert (H0 : Forall hw (I 0%nat ++ I 1%nat)) by (apply Forall_app; split; apply HI).
  unfold uwan_set_otaa_keys_isr, uwan_set_otaa_keys.
  pose proof (any4 p_eui) as A4.
  do 3 (apply (pull g_eui p_eui anyst eui1 A4); [apply indE_calls; exact H0|first [apply loc_gdev|apply loc_memcpy; exact eui3|apply loc_dev]|intro]).
  match goal with |- eqv anyst _ (calls E _ ;;; ?g) => apply (eqv_trans anyst _ (calls E (I 0%nat) ;;; (calls E (I 1%nat) ;;; g))) end.
  2: { apply eqv_same. intros. symmetry. apply calls_then. }
  apply (eqv_ind g_eui p_eui anyst); [apply indE_calls; apply HI|]. intros _.
  do 3 (apply (pull g_eui p_eui anyst eui1 A4); [apply indE_calls; apply HI|first [apply loc_gapp|apply loc_memcpy; exact eui3|apply loc_app]|intro]).
  apply eqv_refl.
Qed.

Lemma txp_isr p : Forall hw (I 0%nat) ->
  eqv anyst (uwan_set_tx_power_isr E I p) (bind (uwan_set_tx_power p) (taking VBool (I 0%nat))).
Proof.
  intro HI. unfold uwan_set_tx_power_isr, uwan_set_tx_power, isr. apply pass_any. intros [|]; [|apply eqv_same; reflexivity].
  apply (push g_eui p_eui anyst eui1 (any4 p_eui)); [apply indE_calls; exact HI|apply loc_txp|]. intros _. apply last_ret. reflexivity.
Qed.
Lemma adr_isr l d : Forall hw (I 0%nat) ->
  eqv anyst (uwan_adr_setup_ack_isr E I l d) (bind (uwan_adr_setup_ack l d) (taking (fun _ => VUnit) (I 0%nat))).
Proof.
  intro HI. unfold uwan_adr_setup_ack_isr, uwan_adr_setup_ack, isr.
  apply (pass g_eui p_eui anyst (any4 p_eui)); [apply loc_lim|]. intros _.
  apply (last_push g_eui p_eui anyst eui1); [apply indE_calls; exact HI|apply loc_del].
Qed.
Lemma pre (HI : hw_only I) (HN : forall n, no_rx_done (I n)) : (forall n, Forall hw (I n) /\ no_rx_done (I n)) /\
  forall a b, (Forall hw a /\ no_rx_done a) -> (Forall hw b /\ no_rx_done b) -> Forall hw (a ++ b) /\ no_rx_done (a ++ b).
Proof.
  split; [intro n; split; [apply HI|apply HN]|]. unfold no_rx_done. intros a b [A1 A2] [B1 B2]. split; apply Forall_app; auto.
Qed.
Definition all7 : list op := ((((((I 0%nat ++ I 1%nat) ++ I 2%nat) ++ I 3%nat) ++ I 4%nat) ++ I 5%nat) ++ I 6%nat).
Lemma session_isr a u d n p : hw_only I -> (forall n, no_rx_done (I n)) ->
  eqv offset0 (uwan_set_session_isr E I a u d n p) (bind (uwan_set_session a u d n p) (taking (fun _ => VUnit) all7)).
Proof.
  intros HI HN. destruct (pre HI HN) as [Q1 Q2]. unfold taking. cbn [took].
  assert (K : forall l, Forall hw l /\ no_rx_done l -> ind g_ses p_ses offset0 (calls E l)) by (intros l [H1 H2]; exact (indSes_calls E l H1 H2)).
  unfold uwan_set_session_isr, uwan_set_session, isr.
  apply (pass g_ses p_ses offset0 ses4); [apply loc_ses_mod|]. intros _.
  repeat match goal with
  | |- eqv _ (bind (calls E _) (fun _ => bind (calls E _) _)) _ => apply merge
  | |- eqv _ (bind (calls E _) (fun _ => bind _ _)) _ => apply (push g_ses p_ses offset0 ses1 ses4);
      [apply K; repeat apply Q2; apply Q1|first [apply loc_ses_mod|apply loc_ses_get|apply loc_ses_dr|apply loc_memcpy; exact ses3]|intro]
  end.
  apply (last_push g_ses p_ses offset0 ses1); [apply K; repeat apply Q2; apply Q1|apply loc_ses_mod].
Qed.

Lemma rx2_isr f d : Forall hw (I 0%nat) -> no_rx_done (I 0%nat) -> no_timeout (I 0%nat) ->
  eqv anyst (uwan_set_rx2_isr E I f d) (bind (uwan_set_rx2 f d) (taking VErr (I 0%nat))).
Proof.
  intros H1 H2 H3. pose proof (indRx2_calls E (I 0%nat) H1 H2 H3) as K. unfold uwan_set_rx2_isr, uwan_set_rx2, isr.
  destruct (negb (is_valid_dr d)); [apply eqv_same; reflexivity|]. destruct (negb (is_valid_frequency f)); [apply eqv_same; reflexivity|].
  apply (pass g_rx2 p_rx2 anyst (any4 p_rx2)); [apply loc_rxf|]. intros _.
  apply (push g_rx2 p_rx2 anyst rxa (any4 p_rx2)); [exact K|apply loc_rxd|]. intros _. apply last_ret. reflexivity.
Qed.
Lemma nb_isr n : Forall hw (I 0%nat) -> no_rx_done (I 0%nat) ->
  eqv anyst (uwan_set_nb_trans_isr E I n) (bind (uwan_set_nb_trans n) (taking VBool (I 0%nat))).
Proof.
  intros H1 H2. pose proof (indNb_calls E (I 0%nat) H1 H2) as K. unfold uwan_set_nb_trans_isr, uwan_set_nb_trans, isr.
  apply (pass g_nb p_nb anyst (any4 p_nb)).
  { unfold set_nb_trans. destruct (_ && _); [|apply loc_ret; exact nb3]. apply (loc_bind _ _ nb1 nb2); [apply loc_nbu|intro; apply loc_ret; exact nb3]. }
  intros [|]; [|apply eqv_same; reflexivity].
  apply (push g_nb p_nb anyst nb1 (any4 p_nb)); [exact K|apply loc_nbd|]. intros _. apply last_ret. reflexivity.
Qed.
Lemma enable_isr i b : Forall hw (I 0%nat) -> no_rx_done (I 0%nat) ->
  eqv anyst (uwan_enable_channel_isr E I i b) (bind (uwan_enable_channel i b) (taking VErr (I 0%nat))).
Proof.
  intros H1 H2. pose proof (indCh_calls E (I 0%nat) H1 H2) as K. unfold uwan_enable_channel_isr, uwan_enable_channel, isr.
  destruct (MAX_CHANNELS <=? i); [apply eqv_same; reflexivity|]. destruct b.
  - do 2 (apply (pass g_ch p_ch anyst (any4 p_ch)); [locch|intro]). destruct (_ =? 0); [apply eqv_same; reflexivity|].
    do 2 (apply (pass g_ch p_ch anyst (any4 p_ch)); [locch|intro]).
    apply (push g_ch p_ch anyst ch1 (any4 p_ch)); [exact K|locch|]. intros _. apply last_ret. reflexivity.
  - apply (pass g_ch p_ch anyst (any4 p_ch)); [locch|intro].
    do 2 (apply (push g_ch p_ch anyst ch1 (any4 p_ch)); [exact K|locch; apply loc_rmax|intro]). apply last_ret. reflexivity.
Qed.
Lemma channel_isr i f : Forall hw (I 0%nat) -> no_rx_done (I 0%nat) ->
  eqv anyst (uwan_set_channel_isr E I i f) (bind (uwan_set_channel i f) (taking VErr (I 0%nat))).
Proof.
  intros H1 H2. pose proof (indCh_calls E (I 0%nat) H1 H2) as K. unfold uwan_set_channel_isr, uwan_set_channel, isr.
  destruct (MAX_CHANNELS <=? i); [apply eqv_same; reflexivity|]. destruct (negb (is_valid_frequency f)); [apply eqv_same; reflexivity|].
  do 3 (apply (pass g_ch p_ch anyst (any4 p_ch)); [locch|intro]).
  apply (push g_ch p_ch anyst ch1 (any4 p_ch)); [exact K|apply loc_enable|]. intro. apply last_ret. reflexivity.
Qed.

(** ** Steps *)
Lemma then_steps {A} (wrap : A -> val) ops w o (f m : C A) v es w2 : call E o = (x <- m ;; ret (wrap x)) -> call_set_isr E I o = (x <- f ;; ret (wrap x)) ->
  (forall r, f (w_hist w) (w_st w) = Ok r <-> bind m (taking wrap ops) (w_hist w) (w_st w) = Ok r) ->
  step_set_isr E I w o = Some (v, es, w2) <-> served_then E ops w o v es w2.
Proof.
  intros Ho Hf Q. unfold step_set_isr, served_then, step. rewrite Ho, Hf. destruct w as [s h]. cbn [w_hist w_st] in *.
  assert (R : forall v0 s0 es0, (x <- f ;; ret (wrap x)) h s = Ok (v0, s0, es0) <-> exists x s1 e1 e2, m h s = Ok (x, s1, e1) /\ v0 = wrap x /\ es0 = e1 ++ e2 /\
    calls E (if took (wrap x) then ops else []) (h ++ e1) s1 = Ok (tt, s0, e2)).
  { intros v0 s0 es0. unfold bind, ret. split.
    - intro X. destruct (f h s) as [[[x s1] e1]|] eqn:Ef; [|discriminate X]. rewrite app_nil_r in X. injection X as <- <- <-.
      pose proof (proj1 (Q (x, s1, e1)) eq_refl) as Ef'. unfold bind, taking in Ef'. destruct (m h s) as [[[y t1] f1]|]; [|discriminate Ef']. unfold bind, ret in Ef'.
      destruct (calls E _ (h ++ f1) t1) as [[[[] t2] f2]|] eqn:Ec in Ef'; [|discriminate Ef']. rewrite app_nil_r in Ef'. injection Ef' as <- <- <-. exists y, t1, f1, f2. auto.
    - intros (x & s1 & e1 & e2 & Em & -> & -> & Ec). rewrite (proj2 (Q (x, s0, e1 ++ e2))), app_nil_r; [reflexivity|].
      unfold bind, taking. rewrite Em. unfold bind, ret. rewrite Ec, app_nil_r. reflexivity. }
  split.
  - intro X. destruct ((x <- f ;; ret (wrap x)) h s) as [[[v0 s0] es0]|] eqn:Ef; [|discriminate X]. injection X as <- <- <-.
    destruct (proj1 (R v0 s0 es0) eq_refl) as (x & s1 & e1 & e2 & Em & -> & -> & Ec). exists e1, (Mk_world s1 (h ++ e1)).
    apply calls_exec in Ec as (tr & Hx & ->). exists tr. unfold bind, ret. rewrite Em, app_nil_r. rewrite <- app_assoc in Hx. auto.
  - intros (e1 & w1 & tr & Em & Hx & ->). unfold bind, ret in Em. destruct (m h s) as [[[x s1] f1]|] eqn:Eq; [|discriminate Em]. rewrite app_nil_r in Em. injection Em as <- <- <-.
    destruct w2 as [s2 h2]. pose proof (exec_hist _ _ _ _ _ Hx) as Hh. cbn [w_hist] in Hh. subst h2.
    rewrite (proj2 (R (wrap x) s2 (f1 ++ all_evs tr))); [rewrite app_assoc; reflexivity|].
    exists x, s1, f1, (all_evs tr). repeat split. apply calls_exec. exists tr. split; [exact Hx|reflexivity].
Qed.
Lemma first_steps ops w o (f m : C unit) v es w2 : call E o = as_unit m -> call_set_isr E I o = as_unit f ->
  (forall r, f (w_hist w) (w_st w) = Ok r <-> (calls E ops ;;; m) (w_hist w) (w_st w) = Ok r) ->
  step_set_isr E I w o = Some (v, es, w2) <-> served_first E ops w o v es w2.
Proof.
  intros Ho Hf Q. unfold step_set_isr, served_first, step. rewrite Ho, Hf. destruct w as [s h]. cbn [w_hist w_st] in *. unfold as_unit. split.
  - intro X. unfold bind, ret in X. destruct (f h s) as [[[[] s0] es0]|] eqn:Ef; [|discriminate X]. rewrite app_nil_r in X. injection X as <- <- <-.
    pose proof (proj1 (Q (tt, s0, es0)) eq_refl) as Ef'. unfold bind in Ef'. destruct (calls E ops h s) as [[[[] s1] e1]|] eqn:Ec; [|discriminate Ef'].
    destruct (m (h ++ e1) s1) as [[[[] s2] e2]|] eqn:Em; [|discriminate Ef']. injection Ef' as <- <-.
    apply calls_exec in Ec as (tr & Hx & ->). exists tr, (Mk_world s1 (h ++ all_evs tr)), e2. split; [exact Hx|]. cbn [w_hist w_st]. unfold bind, ret. rewrite Em, app_nil_r, app_assoc. auto.
  - intros (tr & [s1 h1] & es1 & Hx & X & ->). cbn [w_hist w_st] in X. pose proof (exec_hist _ _ _ _ _ Hx) as Hh. cbn [w_hist] in Hh. subst h1.
    unfold bind, ret in *. destruct (m (h ++ all_evs tr) s1) as [[[[] s2] e2]|] eqn:Em; [|discriminate X]. rewrite app_nil_r in X. injection X as <- <- <-.
    rewrite (proj2 (Q (tt, s2, all_evs tr ++ e2))); [rewrite app_nil_r, app_assoc; reflexivity|]. unfold bind.
    rewrite (proj2 (calls_exec E ops h s s1 (all_evs tr)) (ex_intro _ tr (conj Hx eq_refl))), Em. reflexivity.
Qed.
End Settings.
