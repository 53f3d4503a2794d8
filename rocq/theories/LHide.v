(** LHide.v -- a call uses the keys only through the crypto functions (for C102) *)
From Verif Require Import SpecHide2 Stack ClockSync Api.
Open Scope m_scope.

Section Hide.
Context (E : env) (aes cmac : list Z -> list Z -> list Z) (ak sk : list Z -> list Z -> Prop) (HB : keyblind E) (HP : pairing E aes cmac ak sk).
Let E' := with_crypto aes cmac E.

(** the same state with other keys *)
Definition rekey (n p k : list Z) (s : st) : st := on_stk (set_uw_app_key k) (on_ses (fun x => set_app_s_key p (set_nwk_s_key n x)) s).
Definition sim (s s' : st) : Prop := exists n p k, s' = rekey n p k s /\
  sk (nwk_s_key (s_ses s)) n /\ sk (app_s_key (s_ses s)) p /\ ak (uw_app_key (s_stk s)) k.
Definition rel {A} (R : A -> A -> Prop) (m m' : C A) : Prop := forall h h' s s', hidden h = hidden h' -> sim s s' ->
  forall a s1 e, m h s = Ok (a, s1, e) -> exists a' s1' e', m' h' s' = Ok (a', s1', e') /\ R a a' /\ sim s1 s1' /\ hidden e = hidden e'.

Lemma hidden_app a b a' b' : hidden a = hidden a' -> hidden b = hidden b' -> hidden (a ++ b) = hidden (a' ++ b').
Proof. unfold hidden. rewrite !map_app. congruence. Qed.
Lemma r_ret {A} (R : A -> A -> Prop) a a' : R a a' -> rel R (ret a) (ret a').
Proof. intros Ra h h' s s' Hh Hs x s1 e Q. injection Q as <- <- <-. exists a', s', []. split; [reflexivity|]. auto. Qed.
Lemma r_fail {A} (R : A -> A -> Prop) k k' : rel R (fail k) (fail k').
Proof. intros h h' s s' Hh Hs x s1 e Q. discriminate Q. Qed.
Lemma r_bind {A B} (R : A -> A -> Prop) (T : B -> B -> Prop) (m m' : C A) (f f' : A -> C B) :
  rel R m m' -> (forall a a', R a a' -> rel T (f a) (f' a')) -> rel T (bind m f) (bind m' f').
Proof.
  intros Hm Hf h h' s s' Hh Hs b s2 es Q. unfold bind in *. destruct (m h s) as [[[a s1] e1]|] eqn:Em; [|discriminate].
  destruct (f a (h ++ e1) s1) as [[[y s2'] e2]|] eqn:Ef; [|discriminate]. injection Q as -> -> <-.
  destruct (Hm h h' s s' Hh Hs a s1 e1 Em) as (a' & s1' & e1' & X1 & X2 & X3 & X4). rewrite X1.
  destruct (Hf a a' X2 (h ++ e1) (h' ++ e1') s1 s1' (hidden_app _ _ _ _ Hh X4) X3 b s2 e2 Ef) as (b' & s2' & e2' & Y1 & Y2 & Y3 & Y4). rewrite Y1.
  exists b', s2', (e1' ++ e2'). split; [reflexivity|]. split; [exact Y2|]. split; [exact Y3|apply hidden_app; assumption].
Qed.
Lemma r_same {A B} (T : B -> B -> Prop) (m m' : C A) (f f' : A -> C B) : rel eq m m' -> (forall a, rel T (f a) (f' a)) -> rel T (bind m f) (bind m' f').
Proof. intros Hm Hf. eapply r_bind; [exact Hm|]. intros a a' <-. apply Hf. Qed.
Lemma r_gets {A} (R : A -> A -> Prop) (f : st -> A) : (forall s s', sim s s' -> R (f s) (f s')) -> rel R (gets f) (gets f).
Proof. intros G h h' s s' Hh Hs x s1 e Q. injection Q as <- <- <-. exists (f s'), s', []. split; [reflexivity|]. auto. Qed.
Lemma r_modify f f' : (forall s s', sim s s' -> sim (f s) (f' s')) -> rel eq (modify f) (modify f').
Proof. intros G h h' s s' Hh Hs x s1 e Q. injection Q as <- <- <-. exists tt, (f' s'), []. split; [reflexivity|]. auto. Qed.
Lemma r_emit e e' : hide e = hide e' -> rel eq (emit e) (emit e').
Proof. intros G h h' s s' Hh Hs x s1 es Q. injection Q as <- <- <-. exists tt, s', [e']. split; [reflexivity|]. split; [reflexivity|]. split; [exact Hs|]. cbn. congruence. Qed.
Lemma r_query {A} (f f' : list ev -> A) mk : (forall h h', hidden h = hidden h' -> f h = f' h') -> rel eq (query f mk) (query f' mk).
Proof. intros G h h' s s' Hh Hs x s1 es Q. injection Q as <- <- <-. exists (f' h'), s', [mk (f' h')]. split; [reflexivity|]. rewrite (G h h' Hh). auto. Qed.

(** ** code without keys *)
Ltac simgets := let s := fresh in let s' := fresh in intros s s' (? & ? & ? & -> & _); reflexivity.
Ltac simmod := let s := fresh in let s' := fresh in let n := fresh in let p := fresh in let k := fresh in intros s s' (n & p & k & -> & ? & ? & ?); exists n, p, k; (split; [reflexivity|split; [assumption|split; assumption]]).
Ltac head_of t := lazymatch t with ?f _ => head_of f | _ => t end.
Ltac hd := repeat lazymatch goal with
  | |- rel _ (bind _ _) (bind _ _) => apply r_same; [|intro]
  | |- rel eq (ret _) (ret _) => apply r_ret; reflexivity
  | |- rel _ (fail _) _ => apply r_fail
  | |- rel eq (gets _) _ => apply r_gets; simgets
  | |- rel eq (modify _) _ => apply r_modify; simmod
  | |- rel eq (emit _) _ => apply r_emit; reflexivity
  | |- rel eq (query _ _) _ => apply r_query; apply HB
  | |- rel _ (match ?x with _ => _ end) _ => destruct x
  | |- rel _ (let _ := _ in _) _ => cbv zeta
  | |- rel _ ?m _ => first [solve [auto with hide]|let h := head_of m in progress (unfold h)]
  end.
Create HintDb hide.
Lemma h_next fuel : forall a b, rel eq (get_next_loop fuel a b) (get_next_loop fuel a b).
Proof. induction fuel as [|n IH]; intros a b; cbn [get_next_loop]; hd. Qed.
Lemma h_enall n : forall i, rel eq (channels_enable_all_loop n i) (channels_enable_all_loop n i).
Proof. induction n as [|n IH]; intro i; cbn [channels_enable_all_loop]; hd; apply IH. Qed.
Lemma h_remax n : forall i, rel eq (recompute_max n i) (recompute_max n i).
Proof. induction n as [|n IH]; intro i; cbn [recompute_max]; hd; apply IH. Qed.
Local Hint Resolve h_next h_enall h_remax : hide.
Lemma h_cflist n : forall i c l o, rel eq (cflist_loop n i c l o) (cflist_loop n i c l o).
Proof. induction n as [|n IH]; intros i c l o; cbn [cflist_loop]; hd; apply IH. Qed.
Lemma h_mask n : forall i m d, rel eq (ch_mask_loop n i m d) (ch_mask_loop n i m d).
Proof. induction n as [|n IH]; intros i m d; cbn [ch_mask_loop]; hd; apply IH. Qed.
Lemma h_puts l : forall o, rel eq (frame_puts o l) (frame_puts o l).
Proof. induction l as [|b l IH]; intro o; cbn [frame_puts]; hd; apply IH. Qed.
Lemma h_xor n : forall i b p l, rel eq (xor_loop n i b p l) (xor_loop n i b p l).
Proof. induction n as [|n IH]; intros i b p l; cbn [xor_loop]; hd; apply IH. Qed.
Lemma h_eui n : forall o, rel eq (put_eui_rev n o) (put_eui_rev n o).
Proof. induction n as [|n IH]; intro o; cbn [put_eui_rev]; hd; apply IH. Qed.
Lemma h_square n : forall m, rel eq (square_loop n m) (square_loop n m).
Proof. induction n as [|n IH]; intro m; cbn [square_loop]; hd; apply IH. Qed.
Lemma h_ans l : forall o, rel eq (ans_puts o l) (ans_puts o l).
Proof. induction l as [|b l IH]; intro o; cbn [ans_puts]; hd; apply IH. Qed.
Lemma h_rq l : forall o, rel eq (rq_puts o l) (rq_puts o l).
Proof. induction l as [|b l IH]; intro o; cbn [rq_puts]; hd; apply IH. Qed.
Local Hint Resolve h_cflist h_mask h_puts h_xor h_eui h_square h_ans h_rq : hide.
Lemma h_shl b : rel eq (shl24 E b) (shl24 E' b).
Proof. change (shl24 E' b) with (shl24 E b). hd. Qed.
Lemma h_bit b : rel eq (cmd_bit E b) (cmd_bit E' b).
Proof. change (cmd_bit E' b) with (cmd_bit E b). hd. Qed.
Local Hint Resolve h_shl h_bit : hide.
Lemma h_dispatch cid l : rel eq (mac_dispatch (mac_commands E) cid l) (mac_dispatch (mac_commands E') cid l).
Proof. unfold mac_commands. cbn [mac_dispatch]. hd. Qed.
Local Hint Resolve h_dispatch : hide.
Lemma h_loop n : forall l, rel eq (mac_handle_loop E n l) (mac_handle_loop E' n l).
Proof. induction n as [|n IH]; intros [|c l]; cbn [mac_handle_loop]; hd; apply IH. Qed.
Local Hint Resolve h_loop : hide.
Lemma h_cs n cbs buf size : forall o a m, rel eq (cs_loop E n cbs buf size o a m) (cs_loop E' n cbs buf size o a m).
Proof. induction n as [|n IH]; intros o a m; cbn [cs_loop]; hd; apply IH. Qed.
Local Hint Resolve h_cs : hide.

(** ** the crypto functions *)
Definition like (k k' : list Z) : Prop := acts_like E aes cmac k k'.
Lemma h_enc fuel k k' (L : like k k') blk base : forall i p s, rel eq (encrypt_loop E fuel k blk i base p s) (encrypt_loop E' fuel k' blk i base p s).
Proof.
  destruct L as (_ & _ & La & _). induction fuel as [|n IH]; intros i p s; cbn [encrypt_loop]; (destruct (0 <? s); [|hd]); [hd|]. cbv zeta. apply r_same; [hd|intros _].
  cbn [e_aes E' with_crypto]. rewrite La. apply r_same; [apply h_xor|]. intro. apply IH.
Qed.
Lemma h_payload b s k k' d : like k k' -> rel eq (encrypt_payload E b s k d) (encrypt_payload E' b s k' d).
Proof. intro L. unfold encrypt_payload. do 3 (apply r_same; [hd|intro]). cbv zeta. apply r_same; [hd|intros _]. apply r_same; [apply h_enc, L|intros _; hd]. Qed.
Lemma h_mic n k k' d b : like k k' -> rel eq (calc_mic E n k d b) (calc_mic E' n k' d b).
Proof. intro L. unfold calc_mic. do 6 (apply r_same; [hd|intro]). cbn [e_cmac E' with_crypto]. destruct L as (_ & _ & _ & Lc). rewrite Lc. apply r_ret. reflexivity. Qed.
Lemma h_faes k k' o : like k k' -> rel eq (frame_aes E k o) (frame_aes E' k' o).
Proof. intro L. unfold frame_aes. do 2 (apply r_same; [hd|intro]). cbn [e_aes E' with_crypto]. destruct L as (_ & _ & La & _). rewrite La. hd. Qed.
Lemma g_nwk : rel sk (get_ses nwk_s_key) (get_ses nwk_s_key).
Proof. apply r_gets. intros s s' (n & p & k & -> & A & B & D). exact A. Qed.
Lemma g_app : rel sk (get_ses app_s_key) (get_ses app_s_key).
Proof. apply r_gets. intros s s' (n & p & k & -> & A & B & D). exact B. Qed.
Lemma g_key : rel ak (get_stk uw_app_key) (get_stk uw_app_key).
Proof. apply r_gets. intros s s' (n & p & k & -> & A & B & D). exact D. Qed.
Lemma h_derive t an ni : t = 1 \/ t = 2 -> rel sk (derive_session_key E t an ni) (derive_session_key E' t an ni).
Proof.
  intro T. unfold derive_session_key. apply r_same; [hd|intro]. cbv zeta. eapply r_bind; [apply g_key|]. intros k k' Hk. do 3 (apply r_same; [hd|intro]). cbn [e_aes E' with_crypto].
  destruct (pr_app _ _ _ _ _ HP _ _ Hk) as (_ & _ & La & _). rewrite La. apply r_ret. eapply (pr_derived _ _ _ _ _ HP); [exact Hk|].
  eexists t, [_; _; _; _; _; _; _; _]. split; [exact T|]. split; reflexivity.
Qed.
Lemma memcpy_all (R : list Z -> list Z -> Prop) d d' k k' : length d = 16%nat -> length d' = 16%nat -> length k = 16%nat -> length k' = 16%nat -> R k k' ->
  rel R (arr_memcpy d 0 k 16) (arr_memcpy d' 0 k' 16).
Proof.
  intros A B D F Rk. unfold arr_memcpy, len. rewrite A, B, D, F. cbn [Z.of_nat Z.leb Z.add Z.compare Pos.of_succ_nat andb Pos.succ]. 
  apply r_ret. unfold blit. change (Z.to_nat 16) with 16%nat. change (Z.to_nat 0) with 0%nat. rewrite (firstn_all2 k), (firstn_all2 k') by lia. cbn [firstn app Nat.add]. rewrite (skipn_all2 d), (skipn_all2 d') by lia. rewrite !app_nil_r. exact Rk.
Qed.
Lemma len_sk k k' : sk k k' -> length k = 16%nat /\ length k' = 16%nat.
Proof. intro H. destruct (pr_ses _ _ _ _ _ HP _ _ H) as (A & B & _). auto. Qed.
Lemma len_ak k k' : ak k k' -> length k = 16%nat /\ length k' = 16%nat.
Proof. intro H. destruct (pr_app _ _ _ _ _ HP _ _ H) as (A & B & _). auto. Qed.
Lemma h_session a u d n n' p p' : sk n n' -> sk p p' -> rel eq (uwan_set_session a u d n p) (uwan_set_session a u d n' p').
Proof.
  intros Hn Hp. unfold uwan_set_session. do 6 (apply r_same; [hd|intro]).
  destruct (len_sk _ _ Hn) as [L1 L2]. destruct (len_sk _ _ Hp) as [L3 L4].
  eapply r_bind; [apply g_nwk|]. intros k1 k1' K1. destruct (len_sk _ _ K1) as [M1 M2]. eapply r_bind; [apply (memcpy_all sk); [exact M1|exact M2|exact L1|exact L2|exact Hn]|]. intros x x' Hx.
  apply r_same; [|intro]. { apply r_modify. intros s s' (n0 & p0 & k0 & -> & ? & ? & ?). exists x', p0, k0. split; [reflexivity|]. split; [exact Hx|]. split; assumption. }
  eapply r_bind; [apply g_app|]. intros k2 k2' K2. destruct (len_sk _ _ K2) as [M3 M4]. eapply r_bind; [apply (memcpy_all sk); [exact M3|exact M4|exact L3|exact L4|exact Hp]|]. intros y y' Hy.
  apply r_same; [|intro; hd]. apply r_modify. intros s s' (n0 & p0 & k0 & -> & ? & ? & ?). exists n0, y', k0. split; [reflexivity|]. split; [assumption|]. split; [exact Hy|assumption].
Qed.
Lemma h_otaa d a k k' : ak k k' -> rel eq (uwan_set_otaa_keys d a k) (uwan_set_otaa_keys d a k').
Proof.
  intro Hk. unfold uwan_set_otaa_keys. do 6 (apply r_same; [hd|intro]). destruct (len_ak _ _ Hk) as [L1 L2].
  eapply r_bind; [apply g_key|]. intros k1 k1' K1. destruct (len_ak _ _ K1) as [M1 M2]. eapply r_bind; [apply (memcpy_all ak); [exact M1|exact M2|exact L1|exact L2|exact Hk]|]. intros x x' Hx.
  apply r_modify. intros s s' (n0 & p0 & k0 & -> & ? & ? & ?). exists n0, p0, x'. split; [reflexivity|]. split; [assumption|]. split; [assumption|exact Hx].
Qed.

(** ** the calls *)
Ltac hk := repeat lazymatch goal with
  | |- rel _ (bind (get_ses nwk_s_key) _) _ => eapply r_bind; [apply g_nwk|]; let k := fresh "k" in let k' := fresh "k" in let H := fresh "H" in intros k k' H; pose proof (pr_ses _ _ _ _ _ HP _ _ H)
  | |- rel _ (bind (get_ses app_s_key) _) _ => eapply r_bind; [apply g_app|]; let k := fresh "k" in let k' := fresh "k" in let H := fresh "H" in intros k k' H; pose proof (pr_ses _ _ _ _ _ HP _ _ H)
  | |- rel _ (bind (get_stk uw_app_key) _) _ => eapply r_bind; [apply g_key|]; let k := fresh "k" in let k' := fresh "k" in let H := fresh "H" in intros k k' H; pose proof (pr_app _ _ _ _ _ HP _ _ H)
  | |- rel _ (bind (derive_session_key _ _ _ _) _) _ => eapply r_bind; [apply h_derive; auto|]; let k := fresh "k" in let k' := fresh "k" in let H := fresh "H" in intros k k' H
  | |- rel _ (bind _ _) _ => apply r_same; [|intro]
  | |- rel eq (ret _) (ret _) => apply r_ret; reflexivity
  | |- rel _ (calc_mic _ _ _ _ _) _ => apply h_mic; assumption
  | |- rel _ (encrypt_payload _ _ _ _ _) _ => apply h_payload; first [assumption|destruct (_ =? 0); assumption]
  | |- rel _ (frame_aes _ _ _) _ => apply h_faes; assumption
  | |- rel _ (uwan_set_session _ _ _ _ _) _ => apply h_session; assumption
  | |- rel _ (match ?x with _ => _ end) _ => destruct x
  | |- rel _ (let _ := _ in _) _ => cbv zeta
  | |- _ => solve [hd]
  end.
Lemma h_send p d n c : rel eq (uwan_send_frame E p d n c) (uwan_send_frame E' p d n c).
Proof. unfold uwan_send_frame. cbv zeta. hk. Qed.
Lemma h_join : rel eq (uwan_join E) (uwan_join E').
Proof. unfold uwan_join. cbv zeta. hk. Qed.
Lemma h_data p : rel eq (handle_data_msg E p) (handle_data_msg E' p).
Proof. unfold handle_data_msg. cbv zeta. hk. Qed.
Lemma h_accept p : rel eq (handle_join_msg E p) (handle_join_msg E' p).
Proof. unfold handle_join_msg. cbv zeta. hk. Qed.
Local Hint Resolve h_send h_join h_data h_accept : hide.
Lemma h_downlink e : rel eq (handle_downlink E e) (handle_downlink E' e).
Proof. unfold handle_downlink. cbv zeta. hd. Qed.
Local Hint Resolve h_downlink : hide.
Lemma h_evt m : rel eq (evt_handler E m) (evt_handler E' m).
Proof. unfold evt_handler. hd. Qed.
Lemma h_init r : rel eq (uwan_init E r) (uwan_init E' r).
Proof.
  unfold uwan_init. do 2 (apply r_same; [hd|intro]). apply r_same; [|intro; hd]. apply r_modify. intros s s' (n & p & k & -> & ? & ? & ?).
  exists (repeat 0 16), (repeat 0 16), k. split; [reflexivity|]. split; [apply (pr_ses0 _ _ _ _ _ HP)|]. split; [apply (pr_ses0 _ _ _ _ _ HP)|assumption].
Qed.
Local Hint Resolve h_evt h_init h_otaa h_session : hide.
Lemma h_call o o' : same_call ak sk o o' -> rel eq (call E o) (call E' o').
Proof.
  intros [d a k k' Hk|a u d n n' p p' Hn Hp|x Hx].
  - cbn [call]. unfold as_unit. apply r_same; [apply h_otaa, Hk|intro; hd].
  - cbn [call]. unfold as_unit. apply r_same; [apply h_session; assumption|intro; hd].
  - destruct x; try destruct Hx; cbn [call]; hd.
Qed.
Lemma h_step w w' o o' v es w1 : same_call ak sk o o' -> hidden (w_hist w) = hidden (w_hist w') -> sim (w_st w) (w_st w') -> step E w o = Some (v, es, w1) ->
  exists es' w1', step E' w' o' = Some (v, es', w1') /\ hidden es = hidden es' /\ hidden (w_hist w1) = hidden (w_hist w1') /\ sim (w_st w1) (w_st w1').
Proof.
  intros Ho Hh Hs H. unfold step in *. destruct (call E o (w_hist w) (w_st w)) as [[[r s1] e1]|] eqn:Ec; [|discriminate]. injection H as <- <- <-.
  destruct (h_call o o' Ho _ _ _ _ Hh Hs _ _ _ Ec) as (r' & s1' & e1' & X1 & <- & X3 & X4). rewrite X1. exists e1'. eexists. split; [reflexivity|]. split; [exact X4|]. cbn [w_st w_hist].
  split; [apply hidden_app; assumption|exact X3].
Qed.
Lemma h_exec w ops tr w1 : exec E w ops tr w1 -> forall w' ops', Forall2 (same_call ak sk) ops ops' -> hidden (w_hist w) = hidden (w_hist w') -> sim (w_st w) (w_st w') ->
  exists tr' w1', exec E' w' ops' tr' w1' /\ Forall2 same_seen tr tr' /\ sim (w_st w1) (w_st w1').
Proof.
  induction 1 as [w|w o ops v es w1 tr w2 S X IH]; intros w' ops' F Hh Hs.
  - inversion F; subst. exists [], w'. split; [constructor|]. split; [constructor|exact Hs].
  - inversion F as [|? o' ? ops1 Fo Fs]; subst. destruct (h_step _ _ _ _ _ _ _ Fo Hh Hs S) as (es' & w1' & A & B & D & G).
    destruct (IH w1' ops1 Fs D G) as (tr' & w2' & I & J & L). exists ((o', v, es') :: tr'), w2'. split; [econstructor; eassumption|]. split; [constructor; [split; [reflexivity|exact B]|exact J]|exact L].
Qed.
(** ** interrupted calls and handlers that call back *)
Lemma h_calls ops ops' : Forall2 (same_call ak sk) ops ops' -> rel eq (calls E ops) (calls E' ops').
Proof. induction 1 as [|o o' l l' Ho Hl IH]; cbn [calls]; [hd|]. apply r_same; [apply h_call, Ho|intro; exact IH]. Qed.
Lemma h_isr I I' n : same_strikes ak sk I I' -> rel eq (isr E I n) (isr E' I' n).
Proof. intro H. apply h_calls, H. Qed.
Lemma h_react R R' : same_reaction ak sk R R' -> rel eq (react E R) (react E' R').
Proof. intros H h h' s s' Hh Hs. exact (h_calls _ _ (H h h' Hh) h h' s s' Hh Hs). Qed.
Local Hint Resolve h_isr h_react : hide.
Lemma h_send_isr I I' p d n c : same_strikes ak sk I I' -> rel eq (uwan_send_frame_isr E I p d n c) (uwan_send_frame_isr E' I' p d n c).
Proof. intro HI. unfold uwan_send_frame_isr. cbv zeta. hk. Qed.
Lemma h_join_isr I I' : same_strikes ak sk I I' -> rel eq (uwan_join_isr E I) (uwan_join_isr E' I').
Proof. intro HI. unfold uwan_join_isr. cbv zeta. hk. Qed.
Lemma h_init_isr I I' r : same_strikes ak sk I I' -> rel eq (uwan_init_isr E I r) (uwan_init_isr E' I' r).
Proof.
  intro HI. unfold uwan_init_isr. do 4 (apply r_same; [hd|intro]). apply r_same; [|intro; hd]. apply r_modify. intros s s' (n & p & k & -> & ? & ? & ?).
  exists (repeat 0 16), (repeat 0 16), k. split; [reflexivity|]. split; [apply (pr_ses0 _ _ _ _ _ HP)|]. split; [apply (pr_ses0 _ _ _ _ _ HP)|assumption].
Qed.
Lemma h_session_isr I I' a u d n n' p p' : same_strikes ak sk I I' -> sk n n' -> sk p p' -> rel eq (uwan_set_session_isr E I a u d n p) (uwan_set_session_isr E' I' a u d n' p').
Proof.
  intros HI Hn Hp. unfold uwan_set_session_isr. do 11 (apply r_same; [hd|intro]).
  destruct (len_sk _ _ Hn) as [L1 L2]. destruct (len_sk _ _ Hp) as [L3 L4].
  eapply r_bind; [apply g_nwk|]. intros k1 k1' K1. destruct (len_sk _ _ K1) as [M1 M2]. eapply r_bind; [apply (memcpy_all sk); [exact M1|exact M2|exact L1|exact L2|exact Hn]|]. intros x x' Hx.
  apply r_same; [|intro]. { apply r_modify. intros s s' (n0 & p0 & k0 & -> & ? & ? & ?). exists x', p0, k0. split; [reflexivity|]. split; [exact Hx|]. split; assumption. }
  apply r_same; [hd|intro].
  eapply r_bind; [apply g_app|]. intros k2 k2' K2. destruct (len_sk _ _ K2) as [M3 M4]. eapply r_bind; [apply (memcpy_all sk); [exact M3|exact M4|exact L3|exact L4|exact Hp]|]. intros y y' Hy.
  apply r_same; [|intro; hd]. apply r_modify. intros s s' (n0 & p0 & k0 & -> & ? & ? & ?). exists n0, y', k0. split; [reflexivity|]. split; [assumption|]. split; [exact Hy|assumption].
Qed.
Lemma h_otaa_isr I I' d a k k' : same_strikes ak sk I I' -> ak k k' -> rel eq (uwan_set_otaa_keys_isr E I d a k) (uwan_set_otaa_keys_isr E' I' d a k').
Proof.
  intros HI Hk. unfold uwan_set_otaa_keys_isr. do 8 (apply r_same; [hd|intro]). destruct (len_ak _ _ Hk) as [L1 L2].
  eapply r_bind; [apply g_key|]. intros k1 k1' K1. destruct (len_ak _ _ K1) as [M1 M2]. eapply r_bind; [apply (memcpy_all ak); [exact M1|exact M2|exact L1|exact L2|exact Hk]|]. intros x x' Hx.
  apply r_modify. intros s s' (n0 & p0 & k0 & -> & ? & ? & ?). exists n0, p0, x'. split; [reflexivity|]. split; [assumption|]. split; [assumption|exact Hx].
Qed.
Local Hint Resolve h_send_isr h_join_isr h_init_isr h_session_isr h_otaa_isr h_call : hide.
Lemma h_call_isr I I' o o' : same_strikes ak sk I I' -> same_call ak sk o o' -> rel eq (call_isr E I o) (call_isr E' I' o').
Proof.
  intros HI Ho. destruct Ho as [d a k k' Hk|a u d n n' p p' Hn Hp|x Hx]; [apply h_call; constructor; assumption|apply h_call; constructor; assumption|].
  destruct x; cbn [call_isr]; try (apply h_call; constructor; exact Hx); hd.
Qed.
Lemma h_call_set I I' o o' : same_strikes ak sk I I' -> same_call ak sk o o' -> rel eq (call_set_isr E I o) (call_set_isr E' I' o').
Proof.
  intros HI Ho. destruct Ho as [d a k k' Hk|a u d n n' p p' Hn Hp|x Hx].
  - cbn [call_set_isr]. unfold as_unit. apply r_same; [apply h_otaa_isr; assumption|intro; hd].
  - cbn [call_set_isr]. unfold as_unit. apply r_same; [apply h_session_isr; assumption|intro; hd].
  - destruct x; try destruct Hx; cbn [call_set_isr]; try (apply h_call; constructor; exact Logic.I); hd.
Qed.
Lemma h_dispatch_re R R' cid l : same_reaction ak sk R R' -> rel eq (mac_dispatch (mac_commands_re E R) cid l) (mac_dispatch (mac_commands_re E' R') cid l).
Proof. intro HR. unfold mac_commands_re. cbn [mac_dispatch]. hd. Qed.
Local Hint Resolve h_dispatch_re : hide.
Lemma h_loop_re R R' n : same_reaction ak sk R R' -> forall a b, rel eq (mac_loop_re E R n a b) (mac_loop_re E' R' n a b).
Proof. intro HR. induction n as [|n IH]; intros a b; cbn [mac_loop_re]; hd; apply IH. Qed.
Local Hint Resolve h_loop_re : hide.
Lemma h_data_re R R' p : same_reaction ak sk R R' -> rel eq (handle_data_msg_re E R p) (handle_data_msg_re E' R' p).
Proof. intro HR. unfold handle_data_msg_re. cbv zeta. hk. Qed.
Local Hint Resolve h_data_re : hide.
Lemma h_downlink_re R R' e : same_reaction ak sk R R' -> rel eq (handle_downlink_re E R e) (handle_downlink_re E' R' e).
Proof. intro HR. unfold handle_downlink_re. cbv zeta. hd. Qed.
Local Hint Resolve h_downlink_re : hide.
Lemma h_evt_re R R' m : same_reaction ak sk R R' -> rel eq (evt_handler_re E R m) (evt_handler_re E' R' m).
Proof. intro HR. unfold evt_handler_re. hd. Qed.
Lemma h_does w w' j j' v es w1 : same_job ak sk j j' -> hidden (w_hist w) = hidden (w_hist w') -> sim (w_st w) (w_st w') -> does E w j = Some (v, es, w1) ->
  exists es' w1', does E' w' j' = Some (v, es', w1') /\ hidden es = hidden es' /\ hidden (w_hist w1) = hidden (w_hist w1') /\ sim (w_st w1) (w_st w1').
Proof.
  intros Hj Hh Hs. destruct Hj as [o o' Ho|I I' o o' HI Ho|I I' o o' HI Ho|R R' m HR]; cbn [does].
  - apply h_step; assumption.
  - unfold step_isr. destruct (call_isr E I o _ _) as [[[r s1] e1]|] eqn:Ec; [|discriminate]. intro Q. injection Q as <- <- <-.
    destruct (h_call_isr I I' o o' HI Ho _ _ _ _ Hh Hs _ _ _ Ec) as (r' & s1' & e1' & X1 & <- & X3 & X4). rewrite X1. exists e1'. eexists. split; [reflexivity|]. split; [exact X4|]. split; [apply hidden_app; assumption|exact X3].
  - unfold step_set_isr. destruct (call_set_isr E I o _ _) as [[[r s1] e1]|] eqn:Ec; [|discriminate]. intro Q. injection Q as <- <- <-.
    destruct (h_call_set I I' o o' HI Ho _ _ _ _ Hh Hs _ _ _ Ec) as (r' & s1' & e1' & X1 & <- & X3 & X4). rewrite X1. exists e1'. eexists. split; [reflexivity|]. split; [exact X4|]. split; [apply hidden_app; assumption|exact X3].
  - unfold irq_re. destruct (evt_handler_re E R m _ _) as [[[r s1] e1]|] eqn:Ec; [|discriminate]. intro Q. injection Q as <- <- <-.
    destruct (h_evt_re R R' m HR _ _ _ _ Hh Hs _ _ _ Ec) as (r' & s1' & e1' & X1 & <- & X3 & X4). rewrite X1. exists e1'. eexists. split; [reflexivity|]. split; [exact X4|]. split; [apply hidden_app; assumption|exact X3].
Qed.
Lemma h_works w js tr w1 : works E w js tr w1 -> forall w' js', Forall2 (same_job ak sk) js js' -> hidden (w_hist w) = hidden (w_hist w') -> sim (w_st w) (w_st w') ->
  exists tr' w1', works E' w' js' tr' w1' /\ Forall2 same_shown tr tr' /\ sim (w_st w1) (w_st w1').
Proof.
  induction 1 as [w|w j js v es w1 tr w2 S X IH]; intros w' js' F Hh Hs.
  - inversion F; subst. exists [], w'. split; [constructor|]. split; [constructor|exact Hs].
  - inversion F as [|? j' ? js1 Fo Fs]; subst. destruct (h_does _ _ _ _ _ _ _ Fo Hh Hs S) as (es' & w1' & A & B & D & G).
    destruct (IH w1' js1 Fs D G) as (tr' & w2' & I & J & L). exists ((v, es') :: tr'), w2'. split; [econstructor; eassumption|]. split; [constructor; [split; [reflexivity|exact B]|exact J]|exact L].
Qed.
Lemma sim0 : sim power_on power_on.
Proof. exists (repeat 0 16), (repeat 0 16), (repeat 0 16). split; [reflexivity|]. split; [apply (pr_ses0 _ _ _ _ _ HP)|]. split; [apply (pr_ses0 _ _ _ _ _ HP)|apply (pr_app0 _ _ _ _ _ HP)]. Qed.
End Hide.
