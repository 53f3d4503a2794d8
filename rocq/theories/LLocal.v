(** LLocal.v -- a call depends on the crypto functions only through the calls it makes
    (for C76) *)
From Verif Require Import SpecKey Stack ClockSync Api.
Open Scope m_scope.

Section Local.
Context (E : env) (aes cmac : list Z -> list Z -> list Z).
Let E' := with_crypto aes cmac E.

(** the contexts left open by some events *)
Fixpoint aes_after (open : option (list Z)) (es : list ev) : option (list Z) :=
  match es with
  | [] => open
  | CAesNew k :: es' => aes_after (Some k) es'
  | CAesDel :: es' => aes_after None es'
  | _ :: es' => aes_after open es'
  end.
Fixpoint cmac_after (open : option (list Z * list Z)) (es : list ev) : option (list Z * list Z) :=
  match es with
  | [] => open
  | CCmacNew k :: es' => cmac_after (Some (k, [])) es'
  | CCmacUpd d :: es' => cmac_after (match open with Some (k, m) => Some (k, m ++ d) | None => None end) es'
  | CCmacDel :: es' => cmac_after None es'
  | _ :: es' => cmac_after open es'
  end.
Lemma aes_from_app a : forall o b, aes_from o (a ++ b) = aes_from o a ++ aes_from (aes_after o a) b.
Proof. induction a as [|e a IH]; intros o b; [reflexivity|]. destruct e; cbn; rewrite ?IH, ?app_assoc; reflexivity. Qed.
Lemma cmac_from_app a : forall o b, cmac_from o (a ++ b) = cmac_from o a ++ cmac_from (cmac_after o a) b.
Proof. induction a as [|e a IH]; intros o b; [reflexivity|]. destruct e; cbn; rewrite ?IH, ?app_assoc; reflexivity. Qed.

Definition agr (a : option (list Z)) (c : option (list Z * list Z)) (es : list ev) : Prop :=
  same_on aes (e_aes E) (aes_from a es) /\ same_on cmac (e_cmac E) (cmac_from c es).
Lemma agr_app a c e1 e2 : agr a c (e1 ++ e2) -> agr a c e1 /\ agr (aes_after a e1) (cmac_after c e1) e2.
Proof.
  unfold agr, same_on. rewrite aes_from_app, cmac_from_app. intros [A B].
  split; split; intros k x I; (apply A || apply B); apply in_or_app; auto.
Qed.
Definition at_ctx {A} (a : option (list Z)) (c : option (list Z * list Z)) (m m' : C A) : Prop := forall h s r s' es,
  m h s = Ok (r, s', es) -> agr a c es -> m' h s = Ok (r, s', es).
Definition local {A} (m m' : C A) : Prop := forall a c, at_ctx a c m m'.
Lemma local_refl {A} (m : C A) : local m m.
Proof. intros a c h s r s' es H _. exact H. Qed.
Lemma local_bind {A B} (m m' : C A) (f f' : A -> C B) : local m m' -> (forall a, local (f a) (f' a)) -> local (bind m f) (bind m' f').
Proof.
  intros Hm Hf a c h s r s' es H G. unfold bind in *.
  destruct (m h s) as [[[x s1] e1]|] eqn:Em; [|discriminate]. destruct (f x (h ++ e1) s1) as [[[y s2] e2]|] eqn:Ef; [|discriminate].
  injection H as -> -> <-. apply agr_app in G as [G1 G2]. rewrite (Hm a c _ _ _ _ _ Em G1), (Hf x _ _ _ _ _ _ _ Ef G2). reflexivity.
Qed.

(** computations without events *)
Definition silent {A} (m : C A) : Prop := forall h s r s' es, m h s = Ok (r, s', es) -> es = [].
Lemma silent_ret {A} (a : A) : silent (ret a).
Proof. intros h s r s' es H. injection H as _ _ <-. reflexivity. Qed.
Lemma silent_fail {A} k : silent (@fail st ev A k).
Proof. intros h s r s' es H. discriminate H. Qed.
Lemma silent_gets {A} (f : st -> A) : silent (gets f).
Proof. intros h s r s' es H. injection H as _ _ <-. reflexivity. Qed.
Lemma silent_modify f : silent (@modify st ev f).
Proof. intros h s r s' es H. inversion H. reflexivity. Qed.
Lemma silent_bind {A B} (m : C A) (f : A -> C B) : silent m -> (forall a, silent (f a)) -> silent (bind m f).
Proof.
  intros Hm Hf h s r s' es H. unfold bind in H. destruct (m h s) as [[[x s1] e1]|] eqn:Em; [|discriminate].
  destruct (f x (h ++ e1) s1) as [[[y s2] e2]|] eqn:Ef; [|discriminate]. injection H as _ _ <-.
  rewrite (Hm _ _ _ _ _ Em), (Hf _ _ _ _ _ _ Ef). reflexivity.
Qed.
Ltac silent := repeat match goal with
  | |- silent (bind _ _) => apply silent_bind; [|intro]
  | |- silent (ret _) => apply silent_ret
  | |- silent (fail _) => apply silent_fail
  | |- silent (gets _) => apply silent_gets
  | |- silent (modify _) => apply silent_modify
  | |- silent (match ?x with _ => _ end) => destruct x
  | |- silent _ => progress unfold frame_get, frame_put, frame_read, frame_memcpy, arr_get, arr_set, arr_memcpy, get_stk, mod_stk, get_ses, mod_ses
  end.
Lemma xor_silent n : forall i base pos blk, silent (xor_loop n i base pos blk).
Proof. induction n as [|n IH]; intros i base pos blk; cbn [xor_loop]; silent. apply IH. Qed.

(** one step at a time, with the contexts open *)
Lemma at_emit {A} a c e (k k' : C A) : at_ctx (aes_after a [e]) (cmac_after c [e]) k k' -> at_ctx a c (emit e ;;; k) (emit e ;;; k').
Proof.
  intros H h s r s' es Q G. unfold bind, emit in *. destruct (k (h ++ [e]) s) as [[[x s1] e1]|] eqn:Ek; [|discriminate].
  injection Q as -> -> <-. apply (agr_app a c [e] e1) in G as [_ G]. rewrite (H _ _ _ _ _ Ek G). reflexivity.
Qed.
Lemma at_silent {A B} a c (m : C A) (f f' : A -> C B) : silent m -> (forall x, at_ctx a c (f x) (f' x)) -> at_ctx a c (bind m f) (bind m f').
Proof.
  intros Sm H h s r s' es Q G. unfold bind in *. destruct (m h s) as [[[x s1] e1]|] eqn:Em; [|discriminate]. rewrite (Sm _ _ _ _ _ Em) in *.
  destruct (f x (h ++ []) s1) as [[[y s2] e2]|] eqn:Ef; [|discriminate]. injection Q as -> -> <-. rewrite (H _ _ _ _ _ _ Ef G). reflexivity.
Qed.
Lemma at_same {A} a c (m : C A) : at_ctx a c m m.
Proof. intros h s r s' es H _. exact H. Qed.
(** an encryption whose result is used afterwards *)
Lemma at_enc {A} key c b (f : list Z -> C A) (f' : list Z -> C A) :
  (forall x, at_ctx (Some key) c (f x) (f' x)) -> at_ctx (Some key) c (emit (CAesEnc b) ;;; f (e_aes E key b)) (emit (CAesEnc b) ;;; f' (aes key b)).
Proof.
  intros H h s r s' es Q G. unfold bind, emit in *. destruct (f (e_aes E key b) (h ++ [CAesEnc b]) s) as [[[x s1] e1]|] eqn:Ek; [|discriminate].
  injection Q as -> -> <-. assert (Ea : aes key b = e_aes E key b) by (apply (proj1 G); left; reflexivity). rewrite Ea.
  apply (agr_app (Some key) c [CAesEnc b] e1) in G as [_ G]. rewrite (H _ _ _ _ _ _ Ek G). reflexivity.
Qed.
Lemma at_fin {A} a key m (f f' : list Z -> C A) :
  (forall x, at_ctx a (Some (key, m)) (f x) (f' x)) -> at_ctx a (Some (key, m)) (emit CCmacFin ;;; f (e_cmac E key m)) (emit CCmacFin ;;; f' (cmac key m)).
Proof.
  intros H h s r s' es Q G. unfold bind, emit in *. destruct (f (e_cmac E key m) (h ++ [CCmacFin]) s) as [[[x s1] e1]|] eqn:Ek; [|discriminate].
  injection Q as -> -> <-. assert (Ea : cmac key m = e_cmac E key m) by (apply (proj2 G); left; reflexivity). rewrite Ea.
  apply (agr_app a (Some (key, m)) [CCmacFin] e1) in G as [_ G]. rewrite (H _ _ _ _ _ _ Ek G). reflexivity.
Qed.

(** the four functions that use a result *)
Lemma loop_local fuel key blk base : forall i pos size c, at_ctx (Some key) c (encrypt_loop E fuel key blk i base pos size) (encrypt_loop E' fuel key blk i base pos size).
Proof.
  induction fuel as [|n IH]; intros i pos size c; cbn [encrypt_loop]; destruct (0 <? size); try apply at_same.
  cbv zeta.
  apply (at_enc key c (blk ++ [i])
    (fun s_block => src_pos' <- xor_loop (Z.to_nat (if 16 <=? size then 16 else size)) 0 base pos s_block ;; encrypt_loop E n key blk (u8 (i + 1)) base src_pos' (u8 (size - (if 16 <=? size then 16 else size))))
    (fun s_block => src_pos' <- xor_loop (Z.to_nat (if 16 <=? size then 16 else size)) 0 base pos s_block ;; encrypt_loop E' n key blk (u8 (i + 1)) base src_pos' (u8 (size - (if 16 <=? size then 16 else size))))).
  intro x. apply at_silent; [apply xor_silent|]. intro y. apply IH.
Qed.
Lemma at_then {A B} a c (m m' : C A) (f : A -> C B) : at_ctx a c m m' -> at_ctx a c (bind m f) (bind m' f).
Proof.
  intros Hm h s r s' es H G. unfold bind in *. destruct (m h s) as [[[x s1] e1]|] eqn:Em; [|discriminate]. destruct (f x (h ++ e1) s1) as [[[y s2] e2]|] eqn:Ef; [|discriminate].
  injection H as -> -> <-. apply agr_app in G as [G1 G2]. rewrite (Hm _ _ _ _ _ Em G1), Ef. reflexivity.
Qed.
Lemma payload_local base size key dir : local (encrypt_payload E base size key dir) (encrypt_payload E' base size key dir).
Proof.
  intros a c. unfold encrypt_payload. do 3 (apply at_silent; [silent|intro]). cbv zeta. apply at_emit. cbn [aes_after cmac_after]. apply at_then. apply loop_local.
Qed.
Lemma bind_twice {A B D} (m : C A) (f : A -> C B) (g : B -> C D) h s : bind (bind m f) g h s = bind m (fun x => bind (f x) g) h s.
Proof.
  unfold bind. destruct (m h s) as [[[x s1] e1]|]; [|reflexivity]. destruct (f x (h ++ e1) s1) as [[[y s2] e2]|]; [|reflexivity].
  rewrite app_assoc. destruct (g y ((h ++ e1) ++ e2) s2) as [[[z s3] e3]|]; [|reflexivity]. rewrite app_assoc. reflexivity.
Qed.
Lemma at_assoc {A B D} a c (m m' : C A) (f f' : A -> C B) (g g' : B -> C D) :
  at_ctx a c (bind m (fun x => bind (f x) g)) (bind m' (fun x => bind (f' x) g')) -> at_ctx a c (bind (bind m f) g) (bind (bind m' f') g').
Proof. intros H h s r s' es Q G. rewrite bind_twice in *. exact (H _ _ _ _ _ Q G). Qed.
Lemma at_ret {A B} a c (x : A) (g g' : A -> C B) : at_ctx a c (g x) (g' x) -> at_ctx a c (bind (ret x) g) (bind (ret x) g').
Proof.
  intros H h s r s' es Q G. unfold bind, ret in *. destruct (g x (h ++ []) s) as [[[y s2] e2]|] eqn:Ef; [|discriminate]. injection Q as -> -> <-.
  rewrite (H _ _ _ _ _ Ef G). reflexivity.
Qed.
Lemma mic_tail n key prefix : forall a, at_ctx a (Some (key, prefix))
  (msg <- frame_read 0 n ;; emit (CCmacUpd msg) ;;; emit CCmacFin ;;; emit CCmacDel ;;; ret (firstn 4 (e_cmac E key (prefix ++ msg))))
  (msg <- frame_read 0 n ;; emit (CCmacUpd msg) ;;; emit CCmacFin ;;; emit CCmacDel ;;; ret (firstn 4 (e_cmac E' key (prefix ++ msg)))).
Proof.
  intro a. apply at_silent; [silent|]. intro msg. apply at_emit. cbn [aes_after cmac_after].
  apply (at_fin a key (prefix ++ msg) (fun x => emit CCmacDel ;;; ret (firstn 4 x)) (fun x => emit CCmacDel ;;; ret (firstn 4 x))). intro x. apply at_same.
Qed.
Lemma mic_local n key dir b0 : local (calc_mic E n key dir b0) (calc_mic E' n key dir b0).
Proof.
  intros a c. unfold calc_mic. apply at_emit. cbn [aes_after cmac_after]. destruct b0.
  - apply at_assoc. apply at_silent; [silent|intro fd]. apply at_assoc. apply at_silent; [silent|intro fu]. apply at_assoc. apply at_silent; [silent|intro ad]. cbv zeta.
    apply at_assoc. apply at_emit. apply at_ret. cbn [aes_after cmac_after app]. apply mic_tail.
  - apply at_ret. apply mic_tail.
Qed.
Lemma key_local t n i : local (derive_session_key E t n i) (derive_session_key E' t n i).
Proof.
  intros a c. unfold derive_session_key. apply at_silent; [silent|intro nonce]. cbv zeta. apply at_silent; [silent|intro key]. apply at_emit. cbn [aes_after cmac_after].
  match goal with |- context [emit (CAesEnc ?b)] => apply (at_enc key c b (fun x => emit CAesDel ;;; ret x) (fun x => emit CAesDel ;;; ret x)) end. intro x. apply at_same.
Qed.
Lemma faes_local key off c : at_ctx (Some key) c (frame_aes E key off) (frame_aes E' key off).
Proof.
  unfold frame_aes. apply at_silent; [silent|intro src]. apply (at_enc key c src (fun x => frame_memcpy off x 16) (fun x => frame_memcpy off x 16)). intro x. apply at_same.
Qed.
Lemma at_keep {A B} key c (m m' : C A) (f f' : A -> C B) : at_ctx (Some key) c m m' ->
  (forall h s r s' es, m h s = Ok (r, s', es) -> aes_after (Some key) es = Some key /\ cmac_after c es = c) ->
  (forall x, at_ctx (Some key) c (f x) (f' x)) -> at_ctx (Some key) c (bind m f) (bind m' f').
Proof.
  intros Hm K Hf h s r s' es H G. unfold bind in *. destruct (m h s) as [[[x s1] e1]|] eqn:Em; [|discriminate]. destruct (f x (h ++ e1) s1) as [[[y s2] e2]|] eqn:Ef; [|discriminate].
  injection H as -> -> <-. apply agr_app in G as [G1 G2]. destruct (K _ _ _ _ _ Em) as [K1 K2]. rewrite K1, K2 in G2. rewrite (Hm _ _ _ _ _ Em G1), (Hf x _ _ _ _ _ Ef G2). reflexivity.
Qed.
Lemma faes_keep key off c h s r s' es : frame_aes E key off h s = Ok (r, s', es) -> aes_after (Some key) es = Some key /\ cmac_after c es = c.
Proof.
  unfold frame_aes. unfold bind at 1. destruct (frame_read off 16 h s) as [[[src s1] e1]|] eqn:Er; [|discriminate].
  assert (e1 = []) by (revert Er; assert (Sr : silent (frame_read off 16)) by silent; apply Sr). subst.
  unfold bind, emit. destruct (frame_memcpy off _ 16 _ s1) as [[[u s2] e2]|] eqn:Ec; [|discriminate].
  assert (e2 = []) by (revert Ec; assert (Sr : silent (frame_memcpy off (e_aes E key src) 16)) by silent; apply Sr). subst.
  intro Q. inversion Q. split; reflexivity.
Qed.

Lemma cmds_local l : local (mac_handle_commands E l) (mac_handle_commands E' l).
Proof.
  unfold mac_handle_commands. generalize (length l) as n. intro n. revert l. induction n as [|n IH]; intros [|cid rest]; try exact (local_refl _); cbn [mac_handle_loop].
  apply local_bind; [exact (local_refl (mac_dispatch (mac_commands E) cid rest))|]. intros [[] r]; cbn [negb]; [apply IH|exact (local_refl _)].
Qed.
Lemma cs_loop_local cbs buf size n : forall offset aoff mask, local (cs_loop E n cbs buf size offset aoff mask) (cs_loop E' n cbs buf size offset aoff mask).
Proof.
  induction n as [|n IH]; intros offset aoff mask; cbn [cs_loop]; destruct (_ <? _); try exact (local_refl _). cbv zeta.
  apply local_bind; [exact (local_refl _)|intro cmd]. apply local_bind; [exact (local_refl (cmd_bit E cmd))|intro cm]. destruct (negb _); [exact (local_refl _)|].
  apply local_bind; [exact (local_refl (cs_command E cbs buf size cmd _ aoff))|]. intros [o' a']. apply IH.
Qed.
Ltac leaf := lazymatch goal with
  | |- local (calc_mic _ _ _ _ _) _ => apply mic_local
  | |- local (encrypt_payload _ _ _ _ _) _ => apply payload_local
  | |- local (derive_session_key _ _ _ _) _ => apply key_local
  | |- local ?m ?m => exact (local_refl m)
  | |- local (bind _ _) _ => fail
  | |- local (if _ then _ else _) _ => fail
  | |- local (match _ with _ => _ end) _ => fail
  | |- local (channels_get_next _) _ => exact (local_refl (channels_get_next E))
  | |- local (utils_get_random _ ?n) _ => exact (local_refl (utils_get_random E n))
  | |- local (shl24 _ ?n) _ => exact (local_refl (shl24 E n))
  | |- local (mac_handle_commands _ _) _ => apply cmds_local
  | |- local (evt_tx_done _) _ => exact (local_refl (evt_tx_done E))
  | |- local (cs_loop _ _ _ _ _ _ _ _) _ => apply cs_loop_local
  | |- local (query _ _) _ => exact (local_refl _)
  end.
Ltac loc := repeat lazymatch goal with
  | |- local ?m ?m => exact (local_refl m)
  | |- local (bind _ _) (bind _ _) => apply local_bind; [|intro]
  | |- local (match ?x with _ => _ end) _ => destruct x
  | |- local _ _ => leaf
  end.
Lemma local_at {A} (m m' : C A) : local m m' -> forall a c, at_ctx a c m m'.
Proof. auto. Qed.

Lemma join_local : local (uwan_join E) (uwan_join E').
Proof. unfold uwan_join. cbv zeta. loc. Qed.
Lemma send_local p d n cf : local (uwan_send_frame E p d n cf) (uwan_send_frame E' p d n cf).
Proof. unfold uwan_send_frame. cbv zeta. loc. Qed.
Lemma data_local p : local (handle_data_msg E p) (handle_data_msg E' p).
Proof. unfold handle_data_msg. cbv zeta. loc. Qed.
Lemma accept_local p : local (handle_join_msg E p) (handle_join_msg E' p).
Proof.
  unfold handle_join_msg. cbv zeta. destruct (negb _); [leaf|]. apply local_bind; [leaf|intro mhdr]. destruct (negb _); [leaf|]. apply local_bind; [leaf|intro key].
  intros a c. apply at_emit. cbn [aes_after cmac_after]. apply at_keep; [apply faes_local|apply faes_keep|]. intros _.
  apply at_keep.
  - destruct (_ =? 33); [apply faes_local|apply at_same].
  - destruct (_ =? 33); [apply faes_keep|]. intros h s r s' es H. inversion H. split; reflexivity.
  - intros _. apply at_emit. cbn [aes_after cmac_after]. apply local_at. loc.
Qed.
Lemma downlink_local e : local (handle_downlink E e) (handle_downlink E' e).
Proof. unfold handle_downlink. cbv zeta. loc; apply accept_local || apply data_local. Qed.
Lemma evt_local m : local (evt_handler E m) (evt_handler E' m).
Proof. unfold evt_handler. loc; apply downlink_local. Qed.
Lemma call_local o : local (call E o) (call E' o).
Proof.
  destruct o; unfold call, as_err, as_unit, as_bool, as_num; loc.
  - exact (local_refl (uwan_init E r)).
  - apply join_local.
  - apply send_local.
  - apply evt_local.
  - unfold uwan_clock_sync_handle_time_answ. loc. unfold handle_answ. loc.
  - unfold uwan_clock_sync_send_time_req. cbv zeta. loc. apply send_local.
  - unfold uwan_clock_sync_send_answ. cbv zeta. loc. apply send_local.
Qed.
Lemma step_local w o v es w' : step E w o = Some (v, es, w') -> same_on aes (e_aes E) (aes_calls es) -> same_on cmac (e_cmac E) (cmac_calls es) ->
  step E' w o = Some (v, es, w').
Proof.
  unfold step. destruct (call E o (w_hist w) (w_st w)) as [[[r s'] es']|] eqn:Ec; [|discriminate]. intros Q A B. injection Q as -> -> <-.
  rewrite (call_local o None None _ _ _ _ _ Ec (conj A B)). reflexivity.
Qed.
End Local.
