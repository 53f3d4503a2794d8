(** Prop_Act.v -- over-the-air activation with a join server (C88), DevNonces (C89) *)
From Verif Require Import SpecJoin LUp4 LClock Demo Prop_Uplink Prop_Join Prop_Net Prop_Net2.

Definition ids (w : world) : identity := Mk_identity (uw_dev_eui (stk w)) (uw_app_eui (stk w)) (uw_app_key (stk w)).
Lemma reads_request cmac d n : length (id_app d) = 8%nat -> length (id_dev d) = 8%nat -> (forall k m, length (cmac k m) = 16%nat) -> 0 <= n < 65536 ->
  server_reads cmac d (join_request cmac (id_app d) (id_dev d) (id_key d) n) = Some n /\ request_nonce (join_request cmac (id_app d) (id_dev d) (id_key d) n) = n.
Proof.
  intros Ha Hd Hc Hn. unfold server_reads, request_nonce, join_request. cbv zeta. rewrite <- !app_assoc.
  set (f := [MHDR_JOIN_REQ] ++ _). set (body := [MHDR_JOIN_REQ] ++ id_app d ++ rev (id_dev d) ++ le 2 n) in *.
  assert (Hf : f = body ++ firstn 4 (cmac (id_key d) body)) by (unfold f, body; rewrite <- !app_assoc; reflexivity).
  assert (Lr : length (rev (id_dev d)) = 8%nat) by (rewrite rev_length; exact Hd).
  assert (Lb : length body = 19%nat) by (unfold body; rewrite !app_length, Ha, Lr; reflexivity).
  assert (Lm : length (firstn 4 (cmac (id_key d) body)) = 4%nat) by (rewrite firstn_length, Hc; reflexivity).
  assert (Sl : forall p x q k j, length p = k -> length x = j -> slice (p ++ x ++ q) k j = x) by (intros p x q k j Hp <-; apply slice_app_skip; exact Hp).
  assert (E1 : slice f 1 8 = id_app d) by (apply Sl; [reflexivity|exact Ha]).
  assert (E2 : slice f 9 8 = rev (id_dev d)) by (unfold f; rewrite app_assoc; apply Sl; [rewrite app_length, Ha; reflexivity|exact Lr]).
  assert (E3 : slice f 17 2 = le 2 n).
  { unfold f. rewrite (app_assoc _ (id_app d)), (app_assoc _ (rev (id_dev d))). apply Sl; [rewrite !app_length, Ha, Lr; reflexivity|reflexivity]. }
  assert (E4 : slice f 19 4 = firstn 4 (cmac (id_key d) body)).
  { rewrite Hf. rewrite <- (app_nil_r (firstn 4 _)) at 1. apply Sl; assumption. }
  assert (E5 : firstn 19 f = body) by (rewrite Hf, firstn_app, Lb, Nat.sub_diag, firstn_O, app_nil_r, <- Lb; apply firstn_all).
  assert (L : length f = 23%nat) by (rewrite Hf, app_length, Lb, Lm; reflexivity).
  assert (En : unle (le 2 n) = n) by (rewrite unle_le; apply Z.mod_small; exact Hn).
  rewrite E3, En, L, E1, E2, E4, E5, rev_involutive, !list_eqb_refl. split; reflexivity.
Qed.

Lemma reach_ids_len E w : env_ok E -> reachable E w -> length (id_app (ids w)) = 8%nat /\ length (id_dev (ids w)) = 8%nat.
Proof. intros HE Hr. pose proof (reach_Inv E w HE Hr) as HI. split; apply (iv_stk _ HI). Qed.

(** ** C88 Activation with a join server *)
(** the server recognises every request *)
Theorem C88_request_read : forall E w es w', env_ok E -> reachable E w -> step E w OJoin = Some (VErr ERR_NO, es, w') ->
  exists f, join_requests [(OJoin, VErr ERR_NO, es)] = [f] /\ server_reads (e_cmac E) (ids w) f = Some (uw_dev_nonce (stk w')).
Proof.
  intros E w es w' HE Hr H. destruct (C25_join_request E w es w' HE Hr H) as (c & r & _ & Hn & Ht).
  destruct (reach_ids_len E w HE Hr) as [La Ld]. eexists. split; [cbn [join_requests flat_map]; rewrite Ht; reflexivity|].
  rewrite Hn. apply reads_request; auto; [apply HE|]. apply Z.mod_pos_bound. lia.
Qed.
Print Assumptions C88_request_read.

Lemma server_run_agree aes cmac r s fs : agree r s -> forall last, server_run aes cmac r last fs = server_run aes cmac s last fs.
Proof.
  intros (A & B & C). induction fs as [|f fs IH]; intro last; [reflexivity|]. cbn [server_run].
  assert (Ht : server_takes aes cmac r last f = server_takes aes cmac s last f) by (unfold server_takes, port_key; rewrite A, B, C; reflexivity).
  rewrite Ht. destruct (server_takes aes cmac s last f) as [[n u]|]; rewrite IH; reflexivity.
Qed.

(** The device took the answer to its last request: both hold the same session. Missing
    against the full statement: an answer to an earlier request (below). *)
Theorem C88_session_partial : forall E dec ops tr w m v es w' d a f n,
  env_ok E -> aes_inverse E dec -> Forall op_wf ops -> exec E world0 ops tr w -> op_wf (OIrq m) -> receives w m -> joining w = true ->
  grant_wf a -> id_key d = last_app_key tr -> last_join_request tr = Some f -> server_reads (e_cmac E) d f = Some n ->
  rx_data (received E w) = grant_frame (e_cmac E) dec d a -> step E w (OIrq m) = Some (v, es, w') ->
  (exists view, callbacks es = [(ERR_NO, MTYPE_JOIN_ACCEPT, view)]) /\ step E w' OIsJoined = Some (VBool true, [], w') /\
  agree (ses w') (server_session (e_aes E) d a n) /\ f_cnt_up (ses w') = 0 /\ f_cnt_down (ses w') = 0 /\ idle w' /\ joining w' = false.
Proof.
  intros E dec ops tr w m v es w' d a f n HE Hd Ho Hx Hm Hr Hj (W1 & W2 & W3 & W4 & W5 & W6) Hk Hf Hs Hrx H.
  unfold grant_frame in Hrx. rewrite Hk in Hrx.
  destruct (C26_join_accept E dec ops tr w m _ _ _ _ _ _ HE Hd Ho Hx Hm Hr Hj W1 W2 W3 W4 W5 W6 Hrx) as (g & Hg & _ & HA).
  destruct (HA v es w' H) as (B1 & B2 & B3). split; [exact B1|]. split; [exact B2|].
  rewrite Hf in Hg. injection Hg as <-. unfold server_reads in Hs. destruct (_ && _) in Hs; [|discriminate]. injection Hs as <-.
  unfold agree, server_session. cbn [dev_addr nwk_s_key app_s_key]. rewrite Hk. destruct B3. tauto.
Qed.
Print Assumptions C88_session_partial.
(** and from then on the server takes the device's uplinks (C79) ... *)
Theorem C88_uplinks_partial : forall E dec ops tr w m v es w' d a f n ops2 tr2 w2 is,
  env_ok E -> aes_inverse E dec -> Forall op_wf ops -> exec E world0 ops tr w -> op_wf (OIrq m) -> receives w m -> joining w = true ->
  grant_wf a -> id_key d = last_app_key tr -> last_join_request tr = Some f -> server_reads (e_cmac E) d f = Some n ->
  rx_data (received E w) = grant_frame (e_cmac E) dec d a -> step E w (OIrq m) = Some (v, es, w') ->
  Forall op_wf ops2 -> exec E w' ops2 tr2 w2 -> Forall (fun t => ~ new_session_entry t) tr2 -> Forall no_port_0 tr2 ->
  let k := Z.of_nat (length (data_frames tr2)) in let words := said E (tr ++ [(OIrq m, v, es)]) tr2 in
  k <= 4294967296 -> Forall (fun i => 0 <= i < k) is -> passable (-1) is ->
  map handed (server_run (e_aes E) (e_cmac E) (server_session (e_aes E) d a n) (-1) (map (fun i => nth (Z.to_nat i) (data_frames tr2) []) is)) =
  map (fun i => (i, nth (Z.to_nat i) words (false, None))) (fresh (-1) is).
Proof.
  intros E dec ops tr w m v es w' d a f n ops2 tr2 w2 is HE Hd Ho Hx Hm Hr Hj Ha Hk Hf Hs Hrx H Ho2 Hx2 Hn2 Hp2 k words Hc Hi Hpass.
  destruct (C88_session_partial E dec ops tr w m v es w' d a f n HE Hd Ho Hx Hm Hr Hj Ha Hk Hf Hs Hrx H) as (_ & _ & Hag & Hu & _).
  assert (Hx' : exec E world0 (ops ++ [OIrq m]) (tr ++ [(OIrq m, v, es)]) w') by (eapply exec_app; [exact Hx|]; econstructor; [exact H|constructor]).
  assert (Ho' : Forall op_wf (ops ++ [OIrq m])) by (apply Forall_app; auto).
  destruct (C79_uplinks E _ _ w' ops2 tr2 w2 is HE Ho' Hx' Ho2 Hx2 Hn2 Hp2) as [_ R]; [rewrite Hu; exact Hc|exact Hi|exact Hpass|].
  rewrite Hu in R. rewrite <- (server_run_agree _ _ _ _ _ Hag). change (0 - 1) with (-1) in R. rewrite R. apply map_ext. intro i. rewrite Z.add_0_l. reflexivity.
Qed.
Print Assumptions C88_uplinks_partial.
(** ... and the device the server's downlinks (C80) *)
Theorem C88_downlinks_partial : forall E dec ops tr w m v es w' d a f n ops2 tr2 w2 msg cs,
  env_ok E -> aes_inverse E dec -> Forall op_wf ops -> exec E world0 ops tr w -> op_wf (OIrq m) -> receives w m -> joining w = true ->
  grant_wf a -> id_key d = last_app_key tr -> last_join_request tr = Some f -> server_reads (e_cmac E) d f = Some n ->
  rx_data (received E w) = grant_frame (e_cmac E) dec d a -> step E w (OIrq m) = Some (v, es, w') ->
  Forall op_wf ops2 -> exec E w' ops2 tr2 w2 -> Forall (fun t => ~ new_session_entry t /\ join_call t = false) tr2 ->
  (forall c, len (dm_fopts (msg c)) < 16) ->
  heard_frames tr2 = map (server_frame E (server_session (e_aes E) d a n) msg) cs -> heard (-1) cs ->
  deliveries tr2 = map (fun c => (dm_confirmed (msg c), dm_frm (msg c))) (fresh (-1) cs).
Proof.
  intros E dec ops tr w m v es w' d a f n ops2 tr2 w2 msg cs HE Hd Ho Hx Hm Hr Hj Ha Hk Hf Hs Hrx H Ho2 Hx2 Hn2 Hl Hh Hc.
  destruct (C88_session_partial E dec ops tr w m v es w' d a f n HE Hd Ho Hx Hm Hr Hj Ha Hk Hf Hs Hrx H) as (_ & _ & (A & B & C) & _ & Hdn & _ & Hj').
  assert (Hr' : reachable E w') by (exists (ops ++ [OIrq m]), (tr ++ [(OIrq m, v, es)]); split; [apply Forall_app; auto|]; eapply exec_app; [exact Hx|]; econstructor; [exact H|constructor]).
  assert (Ht : top_of w' = -1) by (unfold top_of; rewrite Hdn; reflexivity).
  rewrite <- Ht. eapply C80_downlinks_partial; try eassumption; [|rewrite Ht; exact Hc].
  rewrite Hh. apply map_ext. intro c. unfold server_frame. rewrite A, B, C. reflexivity.
Qed.
Print Assumptions C88_downlinks_partial.

(** ** Concrete cases *)
Lemma traced E ops o (P : list entry -> world -> val -> list ev -> world -> bool) : env_ok E -> forallb op_wfb (o :: ops) = true ->
  match run E world0 ops with Some (tr, w) => match step E w o with Some (v, es, w') => P tr w v es w' | None => false end | None => false end = true ->
  exists tr w v es w', Forall op_wf ops /\ exec E world0 ops tr w /\ op_wf o /\ step E w o = Some (v, es, w') /\ P tr w v es w' = true.
Proof.
  intros HE Hw H. cbn [forallb] in Hw. apply andb_prop in Hw as [Hw1 Hw2]. destruct (run E world0 ops) as [[tr w]|] eqn:Er; [|discriminate].
  destruct (step E w o) as [[[v es] w']|] eqn:Es; [|discriminate]. exists tr, w, v, es, w'.
  split; [|split; [apply run_exec; exact Er|split; [apply op_wfb_ok; exact Hw1|split; [exact Es|exact H]]]].
  apply Forall_forall. intros x Hx. apply op_wfb_ok. rewrite forallb_forall in Hw2. apply Hw2. exact Hx.
Qed.
Definition act_dev : identity := Mk_identity eui1 eui2 k3.
Definition act_1 : grant := Mk_grant 1 2 637603841 0 0 [].
Definition act_2 : grant := Mk_grant 2 2 637603842 0 0 [].
(** two joins, the first not answered in time *)
Definition act_ops : list op := otaa EU868 ++ [OJoin] ++ pause ++ [OJoin; OIrq 4; OTimer TIMER_RX1].
Definition act_request (n : Z) : list Z := join_request toy_cmac eui2 eui1 k3 n.
Definition act_env (a : grant) : env := demo [1; 300; 2; 5] [(grant_frame toy_cmac toy_dec act_dev a, 9)].
Definition agreeb (r s : session) : bool := (dev_addr r =? dev_addr s) && list_eqb (nwk_s_key r) (nwk_s_key s) && list_eqb (app_s_key r) (app_s_key s).
Lemma agreeb_ok r s : agreeb r s = false -> ~ agree r s.
Proof. unfold agreeb, agree. intros H (A1 & A2 & A3). rewrite A1, A2, A3, Z.eqb_refl, !list_eqb_refl in H. discriminate. Qed.
(** the answer to the second request is taken *)
Example C88_session_case : let E := act_env act_2 in exists tr w v es w', Forall op_wf act_ops /\ exec E world0 act_ops tr w /\ op_wf (OIrq 2) /\ step E w (OIrq 2) = Some (v, es, w') /\
  recvb w 2 && joining w && list_eqb (last_app_key tr) (id_key act_dev) &&
  match last_join_request tr with Some f => match server_reads toy_cmac act_dev f with Some n => (n =? 5) && agreeb (ses w') (server_session toy_aes act_dev act_2 n) | None => false end | None => false end &&
  list_eqb (rx_data (received E w)) (grant_frame toy_cmac toy_dec act_dev act_2) && is_joined (ses w') = true.
Proof. intro E. apply traced; [apply demo_ok|reflexivity|vm_compute; reflexivity]. Qed.

(** Refuted: the answer to the first request, arriving late (or replayed by somebody), is
    taken as an answer to the second. The join-accept does not say which request it
    answers and the device remembers neither join-accepts nor AppNonces
    (src/stack.c:243-318), so it reports success with keys nobody else has. [log]: the
    requests the server answered, and its answers. *)
Theorem C88_replay_refuted : ~ (forall E dec ops tr w m v es w' d log view,
  env_ok E -> aes_inverse E dec -> Forall op_wf ops -> exec E world0 ops tr w -> op_wf (OIrq m) -> receives w m -> joining w = true ->
  id_key d = last_app_key tr -> Forall (fun x => In (fst x) (join_requests tr) /\ grant_wf (snd x)) log ->
  In (rx_data (received E w)) (map (fun x => grant_frame (e_cmac E) dec d (snd x)) log) ->
  step E w (OIrq m) = Some (v, es, w') -> callbacks es = [(ERR_NO, MTYPE_JOIN_ACCEPT, view)] ->
  exists f a n, In (f, a) log /\ server_reads (e_cmac E) d f = Some n /\ agree (ses w') (server_session (e_aes E) d a n)).
Proof.
  intro C. set (E := act_env act_1). set (log := [(act_request 300, act_1); (act_request 5, act_2)]).
  destruct (traced E act_ops (OIrq 2) (fun tr w v es w' => recvb w 2 && joining w && list_eqb (last_app_key tr) k3 &&
     forallb (fun x => existsb (list_eqb (fst x)) (join_requests tr)) log && list_eqb (rx_data (received E w)) (grant_frame toy_cmac toy_dec act_dev act_1) &&
     match callbacks es with [(e, t, _)] => err_eqb e ERR_NO && (t =? MTYPE_JOIN_ACCEPT) | _ => false end &&
     forallb (fun x => match server_reads toy_cmac act_dev (fst x) with Some n => negb (agreeb (ses w') (server_session toy_aes act_dev (snd x) n)) | None => true end) log))
    as (tr & w & v & es & w' & Ho & Hx & Hm & Hs & F); [apply demo_ok|reflexivity|vm_compute; reflexivity|].
  apply andb_prop in F as [F F1]. apply andb_prop in F as [F F2]. apply andb_prop in F as [F F3]. apply andb_prop in F as [F F4]. apply andb_prop in F as [F F5]. apply andb_prop in F as [F F6].
  apply list_eqb_eq in F3, F5. rewrite forallb_forall in F1, F4.
  destruct (callbacks es) as [|[[e t] view] [|? ?]] eqn:Ec; try discriminate F2. apply andb_prop in F2 as [Fe Ft]. apply Z.eqb_eq in Ft. subst t.
  unfold err_eqb in Fe. destruct (err_eq_dec e ERR_NO) as [->|]; [|discriminate Fe].
  destruct (C E toy_dec act_ops tr w 2 v es w' act_dev log view (demo_ok _ _) (toy_inverse _ _) Ho Hx Hm (recvb_ok _ _ F) F6 (eq_sym F5)) as (f & a & n & Hin & Hr & Ha); try assumption.
  - apply Forall_forall. intros x Hx'. split.
    + specialize (F4 x Hx'). apply existsb_exists in F4. destruct F4 as (y & Hy & E1). apply list_eqb_eq in E1. rewrite E1. exact Hy.
    + destruct Hx' as [<-|[<-|[]]]; unfold grant_wf, act_1, act_2, is_u32, is_u8; cbn [snd a_nonce a_net a_addr a_dl a_delay a_cflist]; repeat (split; [lia|]); left; reflexivity.
  - left. symmetry. exact F3.
  - specialize (F1 (f, a) Hin). cbn [fst snd] in F1. change (e_cmac E) with toy_cmac in Hr. rewrite Hr in F1. apply negb_true_iff in F1. exact (agreeb_ok _ _ F1 Ha).
Qed.
Print Assumptions C88_replay_refuted.
(** three uplinks after the join, the second one lost, the third one heard twice; two
    downlinks of the server *)
Definition act_later : list op := [OSend 1 [7] false] ++ pause ++ [OSend 2 [8; 9] true; OIrq 4; OTimer TIMER_RX1; OIrq 2] ++ [OSend 3 [10] false; OIrq 4; OTimer TIMER_RX1; OIrq 2].
Definition act_msg (c : Z) : dmsg := Mk_dmsg (c =? 0) 0 [] (Some (5, [c; 77])).
Definition act_full : env := demo [1; 300; 2; 5] ((grant_frame toy_cmac toy_dec act_dev act_2, 9) ::
  map (fun c => (server_frame (demo [] []) (server_session toy_aes act_dev act_2 5) act_msg c, 9)) [0; 3]).
Example C88_later_case : let E := act_full in let (t0, t) := net_trace E (act_ops ++ [OIrq 2]) act_later in let is := [0; 2; 2] in
  run_of E (act_ops ++ [OIrq 2]) act_later (fun w tr w' => is_joined (ses w) && forallb nonewb tr && forallb (fun t => negb (join_call t)) tr) /\
  passable (-1) is /\ Forall no_port_0 t /\ length (data_frames t) = 3%nat /\
  map handed (server_run toy_aes toy_cmac (server_session toy_aes act_dev act_2 5) (-1) (map (fun i => nth (Z.to_nat i) (data_frames t) []) is)) =
    [(0, (false, Some (1, [7]))); (2, (false, Some (3, [10])))] /\
  heard_frames t = map (server_frame E (server_session toy_aes act_dev act_2 5) act_msg) [0; 3] /\ heard (-1) [0; 3] /\
  deliveries t = [(true, Some (5, [0; 77])); (false, Some (5, [3; 77]))].
Proof.
  intros E. destruct (net_trace E (act_ops ++ [OIrq 2]) act_later) as [t0 t] eqn:Et. intro is.
  split; [unfold E, act_full; show_run|]. vm_compute in Et. injection Et as <- <-. split; [cbn; repeat split; discriminate|].
  split; [repeat (apply Forall_cons; [cbn; first [exact I|left; discriminate|right; reflexivity]|]); apply Forall_nil|]. split; [reflexivity|].
  split; [vm_compute; reflexivity|]. split; [vm_compute; reflexivity|]. split; [cbn; repeat split; discriminate|]. vm_compute. reflexivity.
Qed.

(** ** C89 DevNonces *)
(** The DevNonce of a request is made of the 16 low bits of a number drawn for it. *)
Theorem C89_draws_partial : forall E ops tr w, env_ok E -> Forall op_wf ops -> exec E world0 ops tr w ->
  map request_nonce (join_requests tr) = map (fun r => r mod 65536) (nonce_draws tr).
Proof.
  intros E ops tr w HE Ho Hx.
  assert (G : forall w0, reachable E w0 -> exec E w0 ops tr w -> map request_nonce (join_requests tr) = map (fun r => r mod 65536) (nonce_draws tr)).
  { clear Hx. intros w0 Hr0 Hx. induction Hx as [w0|w0 o ops v es w1 tr w2 H Hx IH]; [reflexivity|]. inversion Ho as [|? ? Ho1 Ho2]; subst.
    assert (Hr1 : reachable E w1) by (eapply step_reach; eassumption). specialize (IH Ho2 Hr1).
    unfold join_requests, nonce_draws in *. cbn [flat_map]. rewrite !map_app, IH. f_equal.
    destruct o; try reflexivity. destruct v as [| | |e]; try reflexivity; destruct e; try reflexivity.
    destruct (C25_join_request E w0 es w1 HE Hr0 H) as (c & r & Hd & _ & Ht). rewrite Ht.
    replace (flat_map (fun e => match e with LRand r0 => [r0] | _ => [] end) es) with [c; r].
    - destruct (reach_ids_len E w0 HE Hr0) as [La Ld]. cbn [map]. f_equal.
      apply (reads_request (e_cmac E) (ids w0)); auto; [apply HE|]. apply Z.mod_pos_bound. lia.
    - clear - Hd. transitivity (flat_map (fun e => match e with LRand r0 => [r0] | _ => [] end) (filter is_draw es)); [rewrite Hd; reflexivity|].
      clear Hd. induction es as [|e es IH]; [reflexivity|]. cbn [filter flat_map]. destruct e; cbn [is_draw flat_map app]; try exact IH. f_equal. exact IH. }
  apply (G world0); [|exact Hx]. exists [], []. split; constructor.
Qed.
Print Assumptions C89_draws_partial.
Example C89_draws_case : let E := demo [1; 70000; 2; 5] [] in exists tr w v es w', Forall op_wf act_ops /\ exec E world0 act_ops tr w /\ op_wf (OIrq 1) /\ step E w (OIrq 1) = Some (v, es, w') /\
  list_eqb (map request_nonce (join_requests tr)) [4464; 5] && list_eqb (nonce_draws tr) [70000; 5] = true.
Proof. intro E. apply traced; [apply demo_ok|reflexivity|vm_compute; reflexivity]. Qed.

(** Refuted, even for a random number generator that never repeats itself: nothing
    remembers the DevNonces used (src/stack.c:607-609). A server that does drops the
    second request. *)
Theorem C89_fresh_refuted : ~ (forall E ops tr w, env_ok E -> Forall op_wf ops -> exec E world0 ops tr w ->
  NoDup (nonce_draws tr) -> NoDup (map request_nonce (join_requests tr))).
Proof.
  intro C. set (E := demo [1; 300; 2; 65836] []).
  destruct (traced E act_ops (OIrq 1) (fun tr w v es w' => list_eqb (nonce_draws tr) [300; 65836] && list_eqb (map request_nonce (join_requests tr)) [300; 300]))
    as (tr & w & v & es & w' & Ho & Hx & _ & _ & F); [apply demo_ok|reflexivity|vm_compute; reflexivity|].
  apply andb_prop in F as [F1 F2]. apply list_eqb_eq in F1, F2. specialize (C E act_ops tr w (demo_ok _ _) Ho Hx). rewrite F1, F2 in C.
  assert (N : NoDup [300; 65836]) by (constructor; [intros [X|[]]; discriminate X|constructor; [intros []|constructor]]).
  specialize (C N). inversion C as [|? ? X _]. apply X. left. reflexivity.
Qed.
Print Assumptions C89_fresh_refuted.
