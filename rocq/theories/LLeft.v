(** LLeft.v -- the code reads no byte of the frame buffer that it has not written before in
    the same call (for C103) *)
From Verif Require Import SpecLeft Stack ClockSync Api.
Open Scope m_scope.

Section Left.
Context (E : env) (keep : bool).

Definition put_fr (f : list Z) (s : st) : st := on_stk (set_uw_frame f) s.
Definition fr (s : st) : list Z := uw_frame (s_stk s).
(** buffers that agree in the first [n] bytes *)
Definition agree (n : Z) (f g : list Z) : Prop :=
  length f = 255%nat /\ length g = 255%nat /\ forall i, Z.of_nat i < n -> nth i f 0 = nth i g 0.
Definition rel {A} (n m : Z) (P : A -> Prop) (c : C A) : Prop := forall h s f', agree n (fr s) f' ->
  forall a s1 e, c h s = Ok (a, s1, e) -> keep = true \/ no_empty e ->
  exists f1, c h (put_fr f' s) = Ok (a, put_fr f1 s1, e) /\ agree m (fr s1) f1 /\ P a.
Definition any {A} : A -> Prop := fun _ => True.

Lemma agree_less n m f g : m <= n -> agree n f g -> agree m f g.
Proof. intros L (A & B & D). split; [exact A|]. split; [exact B|]. intros i Hi. apply D. lia. Qed.
Lemma nth_first (l : list Z) : forall n i, (i < n)%nat -> nth i (firstn n l) 0 = nth i l 0.
Proof. induction l as [|x l IH]; intros [|n] [|i] L; cbn; try reflexivity; try lia. apply IH. lia. Qed.
Lemma nth_skip (l : list Z) : forall n i, nth i (skipn n l) 0 = nth (n + i) l 0.
Proof. induction l as [|x l IH]; intros [|n] i; cbn; try reflexivity; [destruct i; reflexivity|apply IH]. Qed.
Lemma sub_same n f g o k : agree n f g -> 0 <= o -> 0 <= k -> o + k <= n -> sub f o k = sub g o k.
Proof.
  intros (A & B & D) Ho Hk L. unfold sub. apply (nth_ext _ _ 0 0); [rewrite !firstn_length, !skipn_length, A, B; reflexivity|].
  intros i Hi. rewrite firstn_length in Hi. rewrite !nth_first, !nth_skip by lia. apply D. lia.
Qed.
Lemma blit_length l o d : 0 <= o -> o + len d <= len l -> length (blit l o d) = length l.
Proof. unfold blit, len. intros. rewrite !app_length, firstn_length, skipn_length. lia. Qed.
Lemma blit_nth l o d i : 0 <= o -> o + len d <= len l -> nth i (blit l o d) 0 =
  if (i <? Z.to_nat o)%nat then nth i l 0 else if (i <? Z.to_nat o + length d)%nat then nth (i - Z.to_nat o) d 0 else nth i l 0.
Proof.
  unfold blit, len. intros H1 H2. destruct (Nat.ltb_spec i (Z.to_nat o)).
  - rewrite app_nth1 by (rewrite firstn_length; lia). apply nth_first. assumption.
  - rewrite app_nth2 by (rewrite firstn_length; lia). rewrite firstn_length, Nat.min_l by lia. destruct (Nat.ltb_spec i (Z.to_nat o + length d)).
    + rewrite app_nth1 by lia. reflexivity.
    + rewrite app_nth2 by lia. rewrite nth_skip. f_equal. lia.
Qed.
Lemma blit_same n f g o d : agree n f g -> 0 <= o <= n -> o + len d <= 255 -> agree (Z.max n (o + len d)) (blit f o d) (blit g o d).
Proof.
  intros (A & B & D) Ho L. assert (Lf : len f = 255) by (unfold len; lia). assert (Lg : len g = 255) by (unfold len; lia).
  split; [rewrite blit_length; lia|]. split; [rewrite blit_length; lia|]. intros i Hi. rewrite !blit_nth by lia. unfold len in *.
  destruct (Nat.ltb_spec i (Z.to_nat o)); [apply D; lia|]. destruct (Nat.ltb_spec i (Z.to_nat o + length d)); [reflexivity|apply D; lia].
Qed.
Lemma upd_blit i v l : (i < length l)%nat -> upd i v l = blit l (Z.of_nat i) [v].
Proof.
  unfold blit. rewrite Nat2Z.id. cbn [length]. revert i. induction l as [|x l IH]; intros [|i] L; cbn in L |- *; try lia; [reflexivity|]. f_equal. apply IH. lia.
Qed.

(** ** rules *)
Lemma r_ret {A} n (P : A -> Prop) a : P a -> rel n n P (ret a).
Proof. intros Pa h s f' Ha x s1 e Q _. injection Q as <- <- <-. exists f'. auto. Qed.
Lemma r_fail {A} n m (P : A -> Prop) k : rel n m P (fail k).
Proof. intros h s f' Ha x s1 e Q. discriminate Q. Qed.
Lemma r_bind {A B} n m k (P : A -> Prop) (T : B -> Prop) (c : C A) (g : A -> C B) : rel n m P c -> (forall a, P a -> rel m k T (g a)) -> rel n k T (bind c g).
Proof.
  intros Hc Hg h s f' Ha b s2 es Q K. unfold bind in *. destruct (c h s) as [[[a s1] e1]|] eqn:Em; [|discriminate].
  destruct (g a (h ++ e1) s1) as [[[y s2'] e2]|] eqn:Ef; [|discriminate]. injection Q as -> -> <-.
  assert (K1 : keep = true \/ no_empty e1) by (destruct K as [K|K]; [left; exact K|right; intros rx I; apply K, in_or_app; left; exact I]).
  assert (K2 : keep = true \/ no_empty e2) by (destruct K as [K'|K']; [left; exact K'|right; intros rx I; apply K', in_or_app; right; exact I]).
  destruct (Hc h s f' Ha a s1 e1 Em K1) as (f1 & X1 & X2 & X3). rewrite X1.
  destruct (Hg a X3 (h ++ e1) s1 f1 X2 b s2 e2 Ef K2) as (f2 & Y1 & Y2 & Y3). rewrite Y1. exists f2. auto.
Qed.
Lemma r_same {A B} n k (T : B -> Prop) (c : C A) (g : A -> C B) : rel n n any c -> (forall a, rel n k T (g a)) -> rel n k T (bind c g).
Proof. intros Hc Hg. eapply r_bind; [exact Hc|]. intros a _. apply Hg. Qed.
Lemma r_less {A} n m m' (P Q : A -> Prop) c : rel n m P c -> m' <= m -> (forall a, P a -> Q a) -> rel n m' Q c.
Proof. intros H L PQ h s f' Ha a s1 e X K. destruct (H h s f' Ha a s1 e X K) as (f1 & Y1 & Y2 & Y3). exists f1. split; [exact Y1|]. split; [eapply agree_less; eassumption|auto]. Qed.
Lemma r_more {A} n n' m (P : A -> Prop) c : rel n m P c -> n <= n' -> rel n' m P c.
Proof. intros H L h s f' Ha. apply H. eapply agree_less; eassumption. Qed.
Lemma r_gets {A} n (g : st -> A) : (forall s f, g (put_fr f s) = g s) -> rel n n any (gets g).
Proof. intros G h s f' Ha x s1 e Q _. injection Q as <- <- <-. exists f'. unfold gets. rewrite G. repeat split; apply Ha. Qed.
Lemma r_modify n g : (forall s f, g (put_fr f s) = put_fr f (g s)) -> (forall s, fr (g s) = fr s) -> rel n n any (modify g).
Proof. intros G F h s f' Ha x s1 e Q _. injection Q as <- <- <-. exists f'. unfold modify. rewrite G, F. repeat split; apply Ha. Qed.
Lemma r_emit n x : rel n n any (emit x).
Proof. intros h s f' Ha y s1 e Q _. injection Q as <- <- <-. exists f'. repeat split; apply Ha. Qed.
Lemma r_query {A} n (g : list ev -> A) mk : rel n n any (query g mk).
Proof. intros h s f' Ha x s1 e Q _. injection Q as <- <- <-. exists f'. repeat split; apply Ha. Qed.
Lemma r_read n : rel n n (fun rx => keep = true \/ rx_data rx <> []) (query (e_pkt E) RRead).
Proof. intros h s f' Ha x s1 e Q K. injection Q as <- <- <-. exists f'. split; [reflexivity|]. split; [exact Ha|]. destruct K as [K|K]; [left; exact K|right; apply K; left; reflexivity]. Qed.

(** ** the buffer *)
Lemma f_get n i : i < n -> rel n n any (frame_get i).
Proof.
  intros L h s f' Ha x s1 e Q _. unfold frame_get, get_stk, bind, gets, arr_get, peek in *. fold (fr s) in Q. change (uw_frame (s_stk (put_fr f' s))) with f'.
  destruct (i <? 0) eqn:Hi; [discriminate|]. destruct Ha as (A & B & D).
  destruct (nth_error (fr s) (Z.to_nat i)) as [v|] eqn:N; [|discriminate]. injection Q as <- <- <-.
  assert (X : (Z.to_nat i < 255)%nat) by (rewrite <- A; apply nth_error_Some; rewrite N; discriminate).
  rewrite (nth_error_nth' f' 0) by lia. rewrite (nth_error_nth' (fr s) 0) in N by lia. injection N as <-. rewrite <- D by lia. exists f'. repeat split; assumption.
Qed.
Lemma f_read n o k : o + k <= n -> rel n n any (frame_read o k).
Proof.
  intros L h s f' Ha x s1 e Q _. unfold frame_read, get_stk, bind, gets in *. fold (fr s) in Q. change (uw_frame (s_stk (put_fr f' s))) with f'.
  destruct (_ && _) eqn:Hc; [|discriminate]. injection Q as <- <- <-. apply andb_prop in Hc as [H1 H3]. apply andb_prop in H1 as [H1 H2].
  assert (X : len f' = len (fr s)) by (unfold len; destruct Ha as (A & B & _); lia). rewrite X, H1, H2, H3. cbn [andb]. unfold ret. rewrite (sub_same n (fr s) f' o k Ha) by lia.
  exists f'. repeat split; apply Ha.
Qed.
Lemma f_memcpy n o d k : o <= n -> rel n (Z.max n (o + k)) (fun _ => 0 <= o /\ 0 <= k /\ o + k <= 255) (frame_memcpy o d k).
Proof.
  intros L h s f' Ha x s1 e Q _. unfold frame_memcpy, get_stk, bind, gets, arr_memcpy in *. fold (fr s) in Q. change (uw_frame (s_stk (put_fr f' s))) with f'.
  destruct (_ && _) eqn:Hc; [|discriminate]. apply andb_prop in Hc as [H1 H4]. apply andb_prop in H1 as [H1 H3]. apply andb_prop in H1 as [H1 H2].
  assert (X : len f' = len (fr s)) by (unfold len; destruct Ha as (A & B & _); lia). assert (Y : len (fr s) = 255) by (unfold len; destruct Ha as (A & _); lia).
  rewrite X, H1, H2, H3, H4. cbn [andb]. injection Q as <- <- <-. eexists. split; [reflexivity|].
  assert (Ld : len (firstn (Z.to_nat k) d) = k) by (unfold len in *; rewrite firstn_length; lia).
  split; [|lia]. cbn [fr put_fr]. rewrite <- Ld at 1. apply blit_same; [exact Ha|lia|lia].
Qed.
Lemma f_put n o b : o <= n -> rel n (Z.max n (o + 1)) (fun a => a = o + 1 /\ 0 <= o <= 254) (frame_put o b).
Proof.
  intros L h s f' Ha x s1 e Q _. unfold frame_put, get_stk, bind, gets, arr_set in *. fold (fr s) in Q. change (uw_frame (s_stk (put_fr f' s))) with f'.
  destruct (in_bounds (fr s) o) eqn:Hc; [|discriminate]. assert (X : in_bounds f' o = in_bounds (fr s) o) by (unfold in_bounds, len; destruct Ha as (A & B & _); rewrite A, B; reflexivity).
  unfold in_bounds, len in Hc. pose proof Ha as (A & B & _). rewrite A in Hc. assert (Ho : 0 <= o <= 254) by (apply andb_prop in Hc as [P1 P2]; apply Z.leb_le in P1; apply Z.ltb_lt in P2; change (Z.of_nat 255) with 255 in P2; lia). unfold in_bounds, len in X. unfold in_bounds, len. rewrite X, A, Hc. injection Q as <- <- <-. eexists. split; [reflexivity|].
  split; [|unfold u8; rewrite Z.mod_small by lia; split; [reflexivity|exact Ho]].
  change (agree (Z.max n (o + 1)) (upd (Z.to_nat o) b (fr s)) (upd (Z.to_nat o) b f')). rewrite !upd_blit by lia. rewrite Z2Nat.id by lia.
  apply (blit_same n _ _ o [b] Ha); unfold len; cbn [length]; lia.
Qed.
Lemma f_puts bs : forall n o, o <= n -> rel n (Z.max n (o + len bs)) (fun a => a = o + len bs) (frame_puts o bs).
Proof.
  induction bs as [|b bs IH]; intros n o L; cbn [frame_puts].
  - eapply r_less; [apply (r_ret n (fun a => a = o)); reflexivity| |]; unfold len; cbn [length]; [lia|]. intros a ->. lia.
  - eapply r_bind; [apply f_put, L|]. intros a [-> Ho]. cbn beta. eapply r_less; [apply IH; lia| |]; unfold len; cbn [length]; [lia|]. intros a ->. lia.
Qed.

(** ** code that does not touch the buffer *)
Ltac head_of t := lazymatch t with ?f _ => head_of f | _ => t end.
Create HintDb left.
Ltac hd := repeat lazymatch goal with
  | |- rel _ _ _ (bind _ _) => apply r_same; [|intro]
  | |- rel _ _ _ (ret _) => apply r_ret; exact I
  | |- rel _ _ _ (fail _) => apply r_fail
  | |- rel _ _ _ (gets _) => apply r_gets; intros; reflexivity
  | |- rel _ _ _ (modify _) => apply r_modify; intros; reflexivity
  | |- rel _ _ _ (emit _) => apply r_emit
  | |- rel _ _ _ (query _ _) => apply r_query
  | |- rel _ _ _ (frame_get _) => apply f_get; lia
  | |- rel _ _ _ (frame_read _ _) => apply f_read; lia
  | |- rel _ _ _ (match ?x with _ => _ end) => destruct x
  | |- rel _ _ _ (let _ := _ in _) => cbv zeta
  | |- rel _ _ _ ?m => first [solve [auto with left]|let h := head_of m in progress (unfold h)]
  end.
Lemma h_next n fuel : forall a b, rel n n any (get_next_loop fuel a b).
Proof. induction fuel as [|k IH]; intros a b; cbn [get_next_loop]; hd. Qed.
Lemma h_enall n k : forall i, rel n n any (channels_enable_all_loop k i).
Proof. induction k as [|k IH]; intro i; cbn [channels_enable_all_loop]; hd; apply IH. Qed.
Lemma h_remax n k : forall i, rel n n any (recompute_max k i).
Proof. induction k as [|k IH]; intro i; cbn [recompute_max]; hd; apply IH. Qed.
Local Hint Resolve h_next h_enall h_remax : left.
Lemma h_cflist n k : forall i c l o, rel n n any (cflist_loop k i c l o).
Proof. induction k as [|k IH]; intros i c l o; cbn [cflist_loop]; hd; apply IH. Qed.
Lemma h_mask n k : forall i m d, rel n n any (ch_mask_loop k i m d).
Proof. induction k as [|k IH]; intros i m d; cbn [ch_mask_loop]; hd; apply IH. Qed.
Lemma h_square n k : forall m, rel n n any (square_loop k m).
Proof. induction k as [|k IH]; intro m; cbn [square_loop]; hd; apply IH. Qed.
Lemma h_ans n l : forall o, rel n n any (ans_puts o l).
Proof. induction l as [|b l IH]; intro o; cbn [ans_puts]; hd; apply IH. Qed.
Lemma h_rq n l : forall o, rel n n any (rq_puts o l).
Proof. induction l as [|b l IH]; intro o; cbn [rq_puts]; hd; apply IH. Qed.
Local Hint Resolve h_cflist h_mask h_square h_ans h_rq : left.
Lemma h_dispatch n cid l : rel n n any (mac_dispatch (mac_commands E) cid l).
Proof. unfold mac_commands. cbn [mac_dispatch]. hd. Qed.
Local Hint Resolve h_dispatch : left.
Lemma h_loop n k : forall l, rel n n any (mac_handle_loop E k l).
Proof. induction k as [|k IH]; intros [|c l]; cbn [mac_handle_loop]; hd; apply IH. Qed.
Local Hint Resolve h_loop : left.
Lemma h_cs n k cbs buf size : forall o a m, rel n n any (cs_loop E k cbs buf size o a m).
Proof. induction k as [|k IH]; intros o a m; cbn [cs_loop]; hd; apply IH. Qed.
Local Hint Resolve h_cs : left.

(** ** code that reads and writes it *)
Lemma u8s x : 0 <= x <= 255 -> u8 x = x.
Proof. intro. unfold u8. apply Z.mod_small. lia. Qed.
Lemma h_xor N l b k : forall i p, 0 <= p -> p + Z.of_nat k <= 255 -> b + p + Z.of_nat k <= N -> rel N N (fun a => a = p + Z.of_nat k) (xor_loop k i b p l).
Proof.
  induction k as [|k IH]; intros i p H1 H2 H3; cbn [xor_loop].
  - apply r_ret. lia.
  - apply r_same; [hd|intro x]. apply r_same; [hd|intro y]. apply r_same; [eapply r_less; [apply f_put; lia|lia|intros; exact I]|intro z].
    rewrite u8s by lia. eapply r_less; [apply IH; lia|lia|]. intros a ->. lia.
Qed.
Lemma h_enc N fuel key blk b : forall i p sz, 0 <= p -> 0 <= sz -> p + sz <= 255 -> b + p + sz <= N -> rel N N any (encrypt_loop E fuel key blk i b p sz).
Proof.
  induction fuel as [|k IH]; intros i p sz H1 H2 H3 H4; cbn [encrypt_loop]; (destruct (0 <? sz) eqn:S; [|hd]); [hd|]. cbv zeta.
  apply r_same; [hd|intros _]. set (c := if 16 <=? sz then 16 else sz). assert (Hc : 0 <= c <= sz) by (subst c; destruct (16 <=? sz) eqn:?; lia).
  eapply r_bind; [apply h_xor; lia|]. intros a ->. rewrite Z2Nat.id by lia. rewrite (u8s (sz - c)) by lia. apply IH; lia.
Qed.
Lemma h_payload N b sz key d : 0 <= sz <= 255 -> b + sz <= N -> rel N N any (encrypt_payload E b sz key d).
Proof. intros. unfold encrypt_payload. do 3 (apply r_same; [hd|intro]). cbv zeta. apply r_same; [hd|intro]. apply r_same; [apply h_enc; lia|intro; hd]. Qed.
Lemma h_mic N k key d b : k <= N -> rel N N any (calc_mic E k key d b).
Proof. intro. unfold calc_mic. hd. Qed.
Lemma h_faes N key o : o + 16 <= N -> rel N N any (frame_aes E key o).
Proof. intro. unfold frame_aes. apply r_same; [hd|intro]. apply r_same; [hd|intro]. eapply r_less; [apply f_memcpy; lia|lia|intros; exact I]. Qed.
Lemma h_eui k : forall n o, o <= n -> rel n (Z.max n (o + Z.of_nat k)) (fun a => a = o + Z.of_nat k) (put_eui_rev k o).
Proof.
  induction k as [|k IH]; intros n o L; cbn [put_eui_rev].
  - eapply r_less; [apply (r_ret n (fun a => a = o)); reflexivity|lia|]. intros a ->. lia.
  - apply r_same; [hd|intro]. apply r_same; [hd|intro]. eapply r_bind; [apply f_put, L|]. intros c [-> Ho]. eapply r_less; [apply IH; lia|lia|]. intros c ->. lia.
Qed.
Lemma h_tx N o : o <= N -> rel N N any (radio_tx o).
Proof. intro. unfold radio_tx. hd. Qed.
Local Hint Extern 1 (rel _ _ _ (calc_mic _ _ _ _ _)) => (apply h_mic; lia) : left.
Local Hint Extern 1 (rel _ _ _ (radio_tx _)) => (apply h_tx; lia) : left.
Local Hint Extern 1 (rel _ _ _ (frame_aes _ _ _)) => (apply h_faes; lia) : left.
Ltac fin := lazymatch goal with |- rel ?a ?b _ _ => apply (r_less a a b any any); [hd|lia|auto] end.
Lemma h_join n : 0 <= n <= 1 -> rel n n any (uwan_join E).
Proof.
  intro Hn. unfold uwan_join. apply r_same; [hd|intros [| | | |]]; try (apply r_ret; exact I). apply r_same; [hd|intro fq]. destruct (fq =? 0); [hd|].
  do 11 (apply r_same; [hd|intro]).
  eapply r_bind; [apply f_put; lia|]. intros o1 [-> _]. apply r_same; [hd|intro]. eapply r_bind; [apply f_memcpy; lia|]. intros _ _. cbv zeta. change (u8 (0 + 1 + 8)) with 9.
  eapply r_bind; [apply h_eui; lia|]. intros o2 ->. apply r_same; [hd|intro nonce]. apply r_same; [hd|intro]. eapply r_bind; [apply f_puts; lia|]. intros o3 ->.
  apply r_same; [hd|intro]. unfold len. cbn [length Z.of_nat Pos.of_succ_nat Pos.succ Z.add Pos.add]. apply r_same; [solve [auto with left]|intro]. eapply r_bind; [apply f_memcpy; lia|]. intros _ _.
  rewrite u8s by lia. do 3 (apply r_same; [hd|intro]). fin.
Qed.
Lemma h_send n p d k c : 0 <= n <= 1 -> rel n n any (uwan_send_frame E p d k c).
Proof.
  intro Hn. unfold uwan_send_frame. apply r_same; [hd|intros [| | | |]]; try (apply r_ret; exact I). apply r_same; [hd|intro fq]. destruct (fq =? 0); [hd|].
  apply r_same; [hd|intro mx]. destruct (mx <? k); [hd|]. apply r_same; [hd|intro mp]. destruct (_ && _); [hd|].
  do 9 (apply r_same; [hd|intro]). cbv zeta. apply r_same; [hd|intro addr].
  eapply (r_bind _ 5 _ (fun a => a = 5)); [eapply r_less; [apply f_puts; lia|unfold len; cbn [length]; lia|intros ? ->; reflexivity]|]. intros o1 ->.
  apply r_same; [hd|intro]. apply r_same; [hd|intro]. apply r_same; [hd|intro]. apply r_same; [hd|intro fc]. apply r_same; [hd|intro m]. apply r_same; [hd|intro fu].
  eapply (r_bind _ 8 _ (fun a => a = 8)); [eapply r_less; [apply f_puts; lia|unfold len; cbn [length]; lia|intros ? ->; reflexivity]|]. intros o2 ->. apply r_same; [hd|intro fo].
  eapply r_bind; [apply f_memcpy; lia|]. intros _ (_ & B1 & B2). rewrite (u8s (8 + len fo)) by lia. set (q := 8 + len fo) in *.
  match goal with |- rel ?x _ _ _ => assert (Q : q <= x) by lia; generalize dependent x; intros N Q end.
  assert (T : forall N q, q <= N -> 0 <= q <= 255 -> rel N n any (nwk <- get_ses nwk_s_key ;; mic <- calc_mic E q nwk 0 true ;; frame_memcpy q mic 4 ;;;
      fu <- get_ses f_cnt_up ;; mod_ses (set_f_cnt_up (u32 (fu + 1))) ;;; dl <- get_stk default_rx1_delay ;; mod_stk (set_uw_rx1_delay dl) ;;;
      mod_stk (set_uw_rx2_delay (u32 (dl + SECOND_RX_OFFSET))) ;;; mod_stk (set_uw_state TX) ;;; radio_tx (u8 (q + 4)) ;;; adr_handle_uplink ;;; ret ERR_NO)).
  { intros N0 q0 Q0 R0. apply r_same; [hd|intro]. apply r_same; [hd|intro]. eapply r_bind; [apply f_memcpy; lia|]. intros _ (_ & _ & B3). rewrite u8s by lia. fin. }
  destruct (negb (k =? 0)).
  - eapply (r_bind _ (Z.max N (q + 1 + k)) _ (fun a => a = q + 1 + k /\ 0 <= a <= 255)).
    + eapply r_bind; [apply f_put; lia|]. intros o3 [-> _]. eapply r_bind; [apply f_memcpy; lia|]. intros _ (_ & K1 & K2). apply r_same; [hd|intro].
      match goal with |- rel ?x _ _ _ => assert (X : x = Z.max N (q + 1 + k)) by lia; rewrite X end.
      apply r_same; [apply h_payload; lia|intros _]. apply r_ret. rewrite u8s by lia. lia.
    + intros v [-> Hv]. apply T; lia.
  - eapply r_bind; [apply (r_ret N (fun a => a = q)); reflexivity|]. intros v ->. apply T; lia.
Qed.
Local Hint Extern 1 (rel _ _ _ (uwan_send_frame _ _ _ _ _)) => (apply h_send; lia) : left.
Local Hint Extern 1 (rel _ _ _ (uwan_join _)) => (apply h_join; lia) : left.
Lemma h_accept N p : pk_size p <= N -> rel N N any (handle_join_msg E p).
Proof.
  intro L. unfold handle_join_msg. cbv zeta. destruct ((pk_size p =? 17) || (pk_size p =? 33)) eqn:Sz; cbn [negb]; [|hd].
  destruct (pk_size p =? 33) eqn:S3.
  - apply Z.eqb_eq in S3. rewrite S3 in *. change (u8 (33 - 4)) with 29. hd.
  - assert (S1 : pk_size p = 17) by (apply orb_prop in Sz as [X|X]; [apply Z.eqb_eq in X; exact X|discriminate X]). rewrite S1 in *. change (u8 (17 - 4)) with 13. hd.
Qed.
Definition inside (N : Z) (p : pkt) : Prop := forall o, pk_off p = Some o -> o + pk_size p <= N.
Lemma h_data N p : 0 <= pk_size p <= 255 -> pk_size p <= N -> pk_off p = Some 0 -> rel N N (fun r => inside N (snd r)) (handle_data_msg E p).
Proof.
  intros Hs L O. assert (Ip : inside N p) by (intros o X; rewrite O in X; injection X as <-; lia). unfold handle_data_msg. cbv zeta.
  destruct (pk_size p <? 12) eqn:S; [apply r_ret; exact Ip|]. apply Z.ltb_ge in S.
  apply r_same; [hd|intro mh]. destruct (negb _); [apply r_ret; exact Ip|]. destruct (negb _ && negb _); [apply r_ret; exact Ip|].
  apply r_same; [hd|intro]. do 5 (apply r_same; [hd|intro]). apply r_same; [hd|intro own]. destruct (negb _); [apply r_ret; exact Ip|]. apply r_same; [hd|intro fc].
  assert (F : 0 <= Z.land fc 15 <= 15) by (change 15 with (Z.ones 4) at 1 2; rewrite Z.land_ones by lia; pose proof (Z.mod_pos_bound fc (2 ^ 4)); change (Z.ones 4) with 15; lia). set (fl := Z.land fc 15) in *.
  destruct (pk_size p <? 12 + fl) eqn:S2; [apply r_ret; exact Ip|]. apply Z.ltb_ge in S2. do 2 (apply r_same; [hd|intro]). apply r_same; [hd|intro fresh]. destruct (negb fresh); [apply r_ret; exact Ip|].
  apply r_same; [hd|intro]. apply r_same; [hd|intro]. rewrite (u8s (8 + fl)), (u8s (pk_size p - (12 + fl))), (u8s (8 + fl + 1)), (u8s (pk_size p - 4)) by lia.
  assert (T : forall p1 pld sz, inside N p1 -> (forall o, pld = Some o -> o + sz <= N) -> sz <= 255 -> rel N N (fun r => inside N (snd r))
    (nwk <- get_ses nwk_s_key ;; mic <- calc_mic E (pk_size p - 4) nwk 1 true ;; got <- frame_read (pk_size p - 4) 4 ;;
     if negb (memeq got mic) then ret (ERR_MSG_MIC, p1) else
     (if 0 <? sz then app <- get_ses app_s_key ;; match pld with None => fail UB_null | Some o => encrypt_payload E o sz (if pk_port p1 =? 0 then nwk else app) 1 end else ret tt) ;;;
     adr_handle_downlink ;;; ret (ERR_NO, Mk_pkt pld sz (pk_port p1) (pk_rssi p1) (pk_snr p1)))).
  { intros p1 pld sz I1 I2 Sz. do 3 (apply r_same; [hd|intro]). destruct (negb _); [apply r_ret; exact I1|]. apply r_same.
    - destruct (0 <? sz) eqn:Z0; [|hd]. apply r_same; [hd|intro]. destruct pld as [o|]; [|apply r_fail]. specialize (I2 o eq_refl). apply h_payload; lia.
    - intros _. apply r_same; [hd|intros _]. apply r_ret. exact I2. }
  destruct (0 <? pk_size p - (12 + fl)) eqn:Rs.
  - eapply r_bind; [apply r_same; [hd|intro port]; apply (r_ret N (fun x => inside N (fst (fst x)) /\ (forall o, snd (fst x) = Some o -> o + snd x <= N) /\ snd x <= 255)); split; [|split]|].
    + intros o X. cbn [fst snd pk_off pk_size] in X |- *. rewrite O in X. injection X as <-. lia.
    + intros o X. cbn [fst snd pk_off pk_size] in X |- *. assert (X2 : o = 8 + fl + 1) by congruence. rewrite X2. lia.
    + cbn [fst snd]. lia.
    + intros [[p1 pld] sz] (I1 & I2 & I3). apply T; assumption.
  - eapply r_bind; [apply (r_ret N (fun x => inside N (fst (fst x)) /\ snd (fst x) = None /\ snd x <= 255)); split; [exact Ip|split; [reflexivity|cbn [fst snd]; lia]]|].
    intros [[p1 pld] sz] (I1 & I2 & I3). cbn in I2. subst pld. exact (T p1 None sz I1 (fun o X => ltac:(discriminate X)) I3).
Qed.
Lemma h_view N p : inside N p -> rel N N any (view_of p).
Proof. intro Ip. unfold view_of. destruct (pk_off p) as [o|] eqn:O; [|hd]. specialize (Ip o O). hd. Qed.
Definition first : Z := if keep then 1 else 0.
(** with the packet in hand *)
Lemma h_rest rx : keep = true \/ rx_data rx <> [] -> 0 <= len (rx_data rx) <= 255 -> let N := Z.max first (0 + len (rx_data rx)) in
  let p1 := Mk_pkt (Some 0) (len (rx_data rx)) 0 (rx_rssi rx) (rx_snr rx) in
  rel N first any (emit RSleep ;;;
  '(e', mtype, p2) <-
    (b0 <- frame_get 0 ;; join <- get_stk uw_is_join_state ;;
       (if (join : bool) then r <- handle_join_msg E p1 ;; ret (r, Z.land (Z.shiftr b0 5) 7, p1)
        else '(r, p') <- handle_data_msg E p1 ;; ret (r, Z.land (Z.shiftr b0 5) 7, p'))) ;;
  mod_stk (set_uw_is_join_state false) ;;; v <- view_of p2 ;; emit (CbDown e' mtype v)).
Proof.
  intros K L N p1. assert (F : 0 <= first <= 1) by (unfold first; destruct keep; lia).
  assert (G : 1 <= N). { subst N. destruct K as [K|K]; [unfold first; rewrite K; lia|]. unfold len. destruct (rx_data rx); [destruct (K eq_refl)|cbn [length]; lia]. }
  apply r_same; [hd|intros _]. eapply (r_bind N N first (fun x => inside N (snd x))).
  - apply r_same; [hd|intro b0]. apply r_same; [hd|intros [|]].
    + apply r_same; [apply h_accept; subst N; cbn [pk_size p1]; lia|]. intro r. apply r_ret. intros o X. cbn [snd pk_off pk_size p1] in X |- *. injection X as <-. subst N. lia.
    + eapply r_bind; [apply h_data; cbn [pk_size pk_off p1]; [exact L|subst N; lia|reflexivity]|]. intros [r p'] X. apply r_ret. exact X.
  - intros [[e' mt] p2] X. cbn [snd] in X. lazymatch goal with |- rel ?a ?b _ _ => apply (r_less a a b any any); [|lia|auto] end.
    apply r_same; [hd|intros _]. apply r_same; [apply h_view, X|intro; hd].
Qed.
Lemma bind_assoc {A B D} (m : C A) (f : A -> C B) (g : B -> C D) h s : bind (bind m f) g h s = bind m (fun a => bind (f a) g) h s.
Proof.
  unfold bind. destruct (m h s) as [[[a s1] e1]|]; [|reflexivity]. destruct (f a (h ++ e1) s1) as [[[b s2] e2]|]; [|reflexivity]. rewrite app_assoc.
  destruct (g b ((h ++ e1) ++ e2) s2) as [[[d s3] e3]|]; [|reflexivity]. rewrite app_assoc. reflexivity.
Qed.
Lemma r_ext {A} n m (P : A -> Prop) c c' : (forall h s, c h s = c' h s) -> rel n m P c' -> rel n m P c.
Proof. intros X H h s f' Ha a s1 e Q K. rewrite X in Q |- *. exact (H h s f' Ha a s1 e Q K). Qed.
Lemma bind_ret {A B} (a : A) (g : A -> C B) h s : bind (ret a) g h s = g a h s.
Proof. unfold bind, ret. rewrite app_nil_r. destruct (g a h s) as [[[b s1] e]|]; reflexivity. Qed.
Lemma h_downlink e : rel first first any (handle_downlink E e).
Proof.
  assert (F : 0 <= first <= 1) by (unfold first; destruct keep; lia).
  unfold handle_downlink. cbv zeta. apply r_same; [hd|intros _]. destruct (is_ERR_NO e).
  - eapply r_ext; [intros; apply bind_assoc|]. eapply r_bind; [apply r_read|]. intros rx K. eapply r_ext; [intros; apply bind_assoc|]. eapply r_bind; [apply f_memcpy; lia|].
    intros _ (_ & L1 & L2). eapply r_ext; [intros; apply bind_ret|]. apply h_rest; [exact K|lia].
  - eapply r_ext; [intros; apply bind_ret|]. apply r_same; [hd|intros _]. eapply r_ext; [intros; apply bind_ret|]. apply r_same; [hd|intros _]. apply r_same; [apply h_view; intros o X; discriminate X|intro; hd].
Qed.
Local Hint Resolve h_downlink : left.
Lemma first_ok : 0 <= first <= 1.
Proof. unfold first. destruct keep; lia. Qed.
Lemma h_evt m : rel first first any (evt_handler E m).
Proof. unfold evt_handler. hd. Qed.
Local Hint Resolve h_evt : left.
Lemma h_call o : rel first first any (call E o).
Proof. pose proof first_ok. destruct o; cbn [call]; hd. Qed.
Lemma h_step w o v es w1 f : step E w o = Some (v, es, w1) -> agree first (buffer w) f -> keep = true \/ no_empty es ->
  exists f1, step E (left_over f w) o = Some (v, es, left_over f1 w1) /\ agree first (buffer w1) f1.
Proof.
  unfold step. destruct (call E o (w_hist w) (w_st w)) as [[[r s1] e1]|] eqn:Ec; [|discriminate]. intros Q A K. injection Q as <- <- <-.
  destruct (h_call o (w_hist w) (w_st w) f A r s1 e1 Ec K) as (f1 & X & Y & _). cbn [left_over w_hist w_st]. unfold put_fr in X. rewrite X. exists f1. split; [reflexivity|exact Y].
Qed.
Lemma h_exec w ops tr w1 : exec E w ops tr w1 -> forall f, agree first (buffer w) f -> keep = true \/ no_empty (all_evs tr) ->
  exists f1, exec E (left_over f w) ops tr (left_over f1 w1) /\ agree first (buffer w1) f1.
Proof.
  induction 1 as [w|w o ops v es w1 tr w2 S X IH]; intros f A K; [exists f; split; [constructor|exact A]|].
  assert (K1 : keep = true \/ no_empty es) by (destruct K as [K|K]; [left; exact K|right; intros rx I; apply K, in_or_app; left; exact I]).
  assert (K2 : keep = true \/ no_empty (all_evs tr)) by (destruct K as [K'|K']; [left; exact K'|right; intros rx I; apply K', in_or_app; right; exact I]).
  destruct (h_step _ _ _ _ _ _ S A K1) as (f1 & S1 & A1). destruct (IH f1 A1 K2) as (f2 & X2 & A2). exists f2. split; [econstructor; eassumption|exact A2].
Qed.
End Left.
