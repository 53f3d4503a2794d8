(** LDrv6.v -- src/device/sx126x.c call by call: the commands it sends *)
From Verif Require Export PDrv6 Drv.

(** Commands: the transactions of one primitive, without the bytes that do not
    matter. [z]: the wake-up sequence goes first. *)
Inductive cop :=
| CW (z : bool) (bs : list Z)          (* a command that reads nothing *)
| CS (z : bool) (cmd : Z) (vs : list Z)  (* a status command and the answer *)
| CG (z : bool) (addr : Z) (vs : list Z) (* registers read *)
| CB (z : bool) (off : Z) (vs : list Z)  (* buffer read *)
| CD (e : hev).
Definition status (cmd : Z) : bool := (cmd =? 18) || (cmd =? 19) || (cmd =? 20) || (cmd =? 23).
Definition writing (bs : list Z) : Prop := match bs with c :: _ => c < 18 \/ 30 < c | [] => False end.
Definition like (b : cop) (its : list item) : Prop :=
  match b with
  | CW z bs => exists l x, lead z l /\ mosi x = bs /\ writing bs /\ its = l ++ [Tr x]
  | CS z cmd vs => exists l x y, lead z l /\ mosi x = [cmd; 255] /\ miso y = vs /\ status cmd = true /\ its = l ++ [Tr (x ++ y)]
  | CG z addr vs => exists l x y, lead z l /\ mosi x = [29; Z.shiftr addr 8; Z.land addr 255; 255] /\ miso y = vs /\ its = l ++ [Tr (x ++ y)]
  | CB z off vs => exists l x y, lead z l /\ mosi x = [30; off; 255] /\ miso y = vs /\ its = l ++ [Tr (x ++ y)]
  | CD e => its = [Do e] /\ e <> HWaitBusy
  end.
Inductive likes : list cop -> list item -> Prop :=
| likes_nil : likes [] []
| likes_cons b l bs its : like b l -> likes bs its -> likes (b :: bs) (l ++ its).
Lemma likes_app a : forall i b j, likes a i -> likes b j -> likes (a ++ b) (i ++ j).
Proof.
  induction a as [|x a IH]; intros i b j Ha Hb; inversion Ha; subst; [exact Hb|]. rewrite <- app_assoc. cbn [app]. constructor; [assumption|]. apply IH; assumption.
Qed.
Lemma likes_one b l : like b l -> likes [b] l.
Proof. intro Hl. rewrite <- (app_nil_r l). constructor; [exact Hl|constructor]. Qed.

(** what the chip makes of it *)
Definition bchip (c : c126) (b : cop) : c126 :=
  match b with CW _ bs => cmd126 c bs | CD (HReset true) => reset126 (k_acts c) | _ => c end.
Definition bchips (c : c126) (bs : list cop) : c126 := fold_left bchip bs c.
Definition banswers (cmd : Z) (bs : list cop) : list Z := flat_map (fun b => match b with CS _ c vs => if c =? cmd then vs else [] | _ => [] end) bs.
Definition bbuffer (bs : list cop) : list (Z * list Z) := flat_map (fun b => match b with CB _ off vs => [(off, vs)] | _ => [] end) bs.
Definition bcleared (bs : list cop) : list Z := flat_map (fun b => match b with CW _ [2; x; y] => [256 * x + y] | _ => [] end) bs.
Definition bcalls (bs : list cop) : list hev := flat_map (fun b => match b with CD e => [e] | _ => [] end) bs.
Definition after_cmd (bs : list Z) : option pw := match bs with 132 :: cfg => if bit (hd 0 cfg) 0 then None else Some (Cold false) | _ => Some (Awake false) end.
Definition bpw1 (p : pw) (z : bool) (bs : list Z) : option pw :=
  match p, z with Cold true, true | Awake _, false => after_cmd bs | _, _ => None end.
Definition bpw_see (p : pw) (b : cop) : option pw :=
  match b with CW z bs => bpw1 p z bs | CS z _ _ | CG z _ _ | CB z _ _ => bpw1 p z [] | CD e => pw_see p (Do e) end.
Fixpoint bpw (p : pw) (bs : list cop) : option pw := match bs with [] => Some p | b :: bs' => match bpw_see p b with Some p' => bpw p' bs' | None => None end end.

Lemma chip_tr c x : item126 c (Tr x) = cmd126 c (mosi x). Proof. reflexivity. Qed.
Lemma cmd_read c x y b bs : mosi x = b :: bs -> 18 <= b <= 30 -> cmd126 c (mosi (x ++ y)) = c.
Proof.
  intros Hx Hb. unfold mosi in *. rewrite map_app, Hx. cbn [app].
  assert (E : b = 18 \/ b = 19 \/ b = 20 \/ b = 21 \/ b = 22 \/ b = 23 \/ b = 24 \/ b = 25 \/ b = 26 \/ b = 27 \/ b = 28 \/ b = 29 \/ b = 30) by lia.
  repeat (destruct E as [->|E]; [reflexivity|]). subst b. reflexivity.
Qed.
Lemma status_range cmd : status cmd = true -> 18 <= cmd <= 23. Proof. unfold status. lia. Qed.
Lemma like_chip b l c : like b l -> chip126 c l = bchip c b.
Proof.
  destruct b as [z bs|z cmd vs|z a vs|z off vs|e]; cbn [like].
  - intros (l' & x & Hl & Hx & _ & ->). rewrite (lead_chip z) by exact Hl. unfold chip126. cbn [fold_left]. rewrite chip_tr, Hx. reflexivity.
  - intros (l' & x & y & Hl & Hx & _ & Hs & ->). rewrite (lead_chip z) by exact Hl. unfold chip126. cbn [fold_left]. rewrite chip_tr. apply status_range in Hs. eapply cmd_read; [exact Hx|lia].
  - intros (l' & x & y & Hl & Hx & _ & ->). rewrite (lead_chip z) by exact Hl. unfold chip126. cbn [fold_left]. rewrite chip_tr. eapply cmd_read; [exact Hx|lia].
  - intros (l' & x & y & Hl & Hx & _ & ->). rewrite (lead_chip z) by exact Hl. unfold chip126. cbn [fold_left]. rewrite chip_tr. eapply cmd_read; [exact Hx|lia].
  - intros [-> _]. destruct e; try reflexivity.
Qed.
Lemma likes_chip bs its : likes bs its -> forall c, chip126 c its = bchips c bs.
Proof.
  induction 1 as [|b l bs its Hl _ IH]; intro c; [reflexivity|]. rewrite chip126_app, (like_chip _ _ _ Hl). apply IH.
Qed.
Lemma hd_app (x y : list (Z * Z)) b bs : mosi x = b :: bs -> exists z x', x ++ y = (b, z) :: x' ++ y /\ mosi x' = bs.
Proof. destruct x as [|[b' z] x']; [discriminate|]. intro E. injection E as -> E. exists z, x'. split; [reflexivity|exact E]. Qed.
Lemma like_ans cmd b l : like b l -> status cmd = true -> answers126 cmd l = banswers cmd [b].
Proof.
  intros Hb Hs. assert (L : forall z l', lead z l' -> answers126 cmd l' = []) by (intros z l' Hl; apply (lead_ans z); [exact Hl|apply status_range in Hs; lia|apply status_range in Hs; lia]).
  unfold answers126, banswers in *. destruct b as [z bs|z c vs|z a vs|z off vs|e]; cbn [like flat_map] in *; rewrite app_nil_r.
  - destruct Hb as (l' & x & Hl & Hx & Hw & ->). rewrite flat_map_app, (L z) by exact Hl. cbn [flat_map app]. rewrite app_nil_r.
    destruct bs as [|b bs]; [contradiction|]. cbn [writing] in Hw. apply status_range in Hs. destruct x as [|[b' w] [|x1 x2]]; try reflexivity. injection Hx as -> _. replace (b =? cmd) with false by lia. reflexivity.
  - destruct Hb as (l' & x & y & Hl & Hx & Hy & _ & ->). rewrite flat_map_app, (L z) by exact Hl. cbn [flat_map app]. rewrite app_nil_r.
    destruct x as [|[x0 x1] [|[x2 x3] [|]]]; try discriminate. injection Hx as -> ->. cbn [app]. rewrite Hy. reflexivity.
  - destruct Hb as (l' & x & y & Hl & Hx & Hy & ->). rewrite flat_map_app, (L z) by exact Hl. cbn [flat_map app]. rewrite app_nil_r.
    destruct x as [|[x0 x1] [|[x2 x3] x]]; try discriminate. injection Hx as -> _ _. cbn [app]. apply status_range in Hs. replace (29 =? cmd) with false by lia. reflexivity.
  - destruct Hb as (l' & x & y & Hl & Hx & Hy & ->). rewrite flat_map_app, (L z) by exact Hl. cbn [flat_map app]. rewrite app_nil_r.
    destruct x as [|[x0 x1] [|[x2 x3] x]]; try discriminate. injection Hx as -> _ _. cbn [app]. apply status_range in Hs. replace (30 =? cmd) with false by lia. reflexivity.
  - destruct Hb as [-> _]. reflexivity.
Qed.
Lemma likes_ans cmd bs its : likes bs its -> status cmd = true -> answers126 cmd its = banswers cmd bs.
Proof.
  intros HL Hs. induction HL as [|b l bs its Hl _ IH]; [reflexivity|]. change (b :: bs) with ([b] ++ bs). unfold answers126, banswers in *. rewrite !flat_map_app. f_equal; [|exact IH].
  apply (like_ans cmd b l Hl Hs).
Qed.
Lemma writing_hd30 bs : writing bs -> forall x, mosi x = bs -> buffer126 [Tr x] = [].
Proof.
  intros Hw x Hx. destruct x as [|[b w] x]; [subst; contradiction|]. subst bs. assert (N : b <> 30) by (cbn [mosi map fst writing] in Hw; lia). clear Hw. unfold buffer126. cbn [flat_map]. rewrite app_nil_r.
  destruct b as [|p|p]; try reflexivity. do 5 (destruct p as [p|p|]; try reflexivity). congruence.
Qed.
Lemma like_rest b l : like b l -> buffer126 l = bbuffer [b] /\ cleared126 l = bcleared [b] /\ user_calls l = flat_map (fun e => match e with HUser m => [m] | _ => [] end) (bcalls [b]).
Proof.
  intro Hb. unfold buffer126, cleared126, user_calls in *. unfold bbuffer, bcleared, bcalls.
  destruct b as [z bs|z c vs|z a vs|z off vs|e]; cbn [like flat_map] in *; rewrite ?app_nil_r.
  - destruct Hb as (l' & x & Hl & Hx & Hw & ->). destruct (lead_buf z l' Hl) as (A & B & C). unfold buffer126, cleared126, user_calls in A, B, C. rewrite !flat_map_app, A, B, C. cbn [app].
    pose proof (writing_hd30 _ Hw _ Hx) as D. unfold buffer126 in D. rewrite D. cbn [flat_map]. rewrite Hx, ?app_nil_r. repeat split.
  - destruct Hb as (l' & x & y & Hl & Hx & Hy & Hs & ->). destruct (lead_buf z l' Hl) as (A & B & C). unfold buffer126, cleared126, user_calls in A, B, C. rewrite !flat_map_app, A, B, C. cbn [app flat_map].
    destruct x as [|[x0 x1] [|[x2 x3] [|]]]; try discriminate. injection Hx as -> ->. rewrite ?app_nil_r. cbn [app mosi map fst]. unfold status in Hs.
    assert (E : c = 18 \/ c = 19 \/ c = 20 \/ c = 23) by lia. repeat (destruct E as [->|E]; [repeat split|]). subst c. repeat split.
  - destruct Hb as (l' & x & y & Hl & Hx & Hy & ->). destruct (lead_buf z l' Hl) as (A & B & C). unfold buffer126, cleared126, user_calls in A, B, C. rewrite !flat_map_app, A, B, C. cbn [app flat_map].
    destruct x as [|[x0 x1] x]; try discriminate. injection Hx as -> _. repeat split.
  - destruct Hb as (l' & x & y & Hl & Hx & Hy & ->). destruct (lead_buf z l' Hl) as (A & B & C). unfold buffer126, cleared126, user_calls in A, B, C. rewrite !flat_map_app, A, B, C. cbn [app flat_map].
    destruct x as [|[x0 x1] [|[x2 x3] [|[x4 x5] [|]]]]; try discriminate. injection Hx as -> -> ->. cbn [app]. rewrite Hy. repeat split.
  - destruct Hb as [-> _]. destruct e; repeat split.
Qed.
Lemma likes_rest bs its : likes bs its -> buffer126 its = bbuffer bs /\ cleared126 its = bcleared bs /\ user_calls its = flat_map (fun e => match e with HUser m => [m] | _ => [] end) (bcalls bs).
Proof.
  induction 1 as [|b l bs its Hl _ (I1 & I2 & I3)]; [repeat split|]. destruct (like_rest b l Hl) as (A & B & C). change (b :: bs) with ([b] ++ bs).
  unfold buffer126, cleared126, user_calls, bbuffer, bcleared, bcalls in *. rewrite !flat_map_app, A, B, C, I1, I2, I3. repeat split.
Qed.
Lemma pw_tr x b bs : mosi x = b :: bs -> pw_see (Awake true) (Tr x) = after_cmd (b :: bs).
Proof. intro Hx. cbn [pw_see]. rewrite Hx. reflexivity. Qed.
Lemma bpw1_of p z bs q : bpw1 p z bs = Some q -> pw_of z p /\ after_cmd bs = Some q.
Proof. unfold bpw1. destruct p as [|[|]| |b], z; try discriminate; intro E; (split; [cbn; eauto|exact E]). Qed.
Lemma like_pw b l p q : like b l -> bpw_see p b = Some q -> pw_run p l = Some q.
Proof.
  destruct b as [z bs|z cmd vs|z a vs|z off vs|e]; cbn [like bpw_see].
  - intros (l' & x & Hl & Hx & Hw & ->) Hp. apply bpw1_of in Hp as [Hz Hq]. rewrite (lead_pw z l' p _ Hl Hz). cbn [pw_run]. destruct bs as [|b bs]; [contradiction|]. rewrite (pw_tr x b bs Hx), Hq. reflexivity.
  - intros (l' & x & y & Hl & Hx & _ & Hs & ->) Hp. apply bpw1_of in Hp as [Hz Hq]. rewrite (lead_pw z l' p _ Hl Hz). cbn [pw_run].
    destruct (hd_app x y _ _ Hx) as (w & x' & -> & _). rewrite (pw_tr _ cmd (mosi (x' ++ y))) by reflexivity.
    unfold status in Hs. assert (E : cmd = 18 \/ cmd = 19 \/ cmd = 20 \/ cmd = 23) by lia. injection Hq as <-. repeat (destruct E as [->|E]; [reflexivity|]). subst cmd. reflexivity.
  - intros (l' & x & y & Hl & Hx & _ & ->) Hp. apply bpw1_of in Hp as [Hz Hq]. rewrite (lead_pw z l' p _ Hl Hz). cbn [pw_run].
    destruct (hd_app x y _ _ Hx) as (w & x' & -> & _). rewrite (pw_tr _ 29 (mosi (x' ++ y))) by reflexivity. injection Hq as <-. reflexivity.
  - intros (l' & x & y & Hl & Hx & _ & ->) Hp. apply bpw1_of in Hp as [Hz Hq]. rewrite (lead_pw z l' p _ Hl Hz). cbn [pw_run].
    destruct (hd_app x y _ _ Hx) as (w & x' & -> & _). rewrite (pw_tr _ 30 (mosi (x' ++ y))) by reflexivity. injection Hq as <-. reflexivity.
  - intros [-> _] Hp. cbn [pw_run]. rewrite Hp. reflexivity.
Qed.
Lemma likes_pw bs its : likes bs its -> forall p q, bpw p bs = Some q -> pw_run p its = Some q.
Proof.
  induction 1 as [|b l bs its Hl _ IH]; intros p q Hp; [exact Hp|]. cbn [bpw] in Hp. destruct (bpw_see p b) as [p'|] eqn:E; [|discriminate].
  rewrite pw_app, (like_pw b l p p' Hl E). apply IH, Hp.
Qed.
Lemma bchips_app c a b : bchips c (a ++ b) = bchips (bchips c a) b. Proof. apply fold_left_app. Qed.
Lemma bpw_app a : forall p b, bpw p (a ++ b) = match bpw p a with Some q => bpw q b | None => None end.
Proof. induction a as [|i a IH]; intros p b; [reflexivity|]. cbn [app bpw]. destruct (bpw_see p i); [apply IH|reflexivity]. Qed.

Section T.
Context (H : henv) (HH : henv_ok H).
Definition T {A} (m : D126 A) (s : d126) (Q : A -> d126 -> list cop -> Prop) : Prop :=
  forall h, wp m h s (fun v s' its => exists bs, likes bs its /\ Q v s' bs).
Local Notation on s := (exists o, b_hal s = Some o).
Lemma T_bind {A B} (m : D126 A) (f : A -> D126 B) s Q :
  T m s (fun a s1 b1 => T (f a) s1 (fun b s2 b2 => Q b s2 (b1 ++ b2))) -> T (bind m f) s Q.
Proof.
  intros Hm h. apply wp_bind. eapply wp_weaken; [apply Hm|]. intros a s1 i1 (b1 & L1 & Hf).
  eapply wp_weaken; [apply Hf|]. intros b s2 i2 (b2 & L2 & HQ). exists (b1 ++ b2). split; [apply likes_app; assumption|exact HQ].
Qed.
Lemma T_ret {A} (a : A) s (Q : A -> d126 -> list cop -> Prop) : Q a s [] -> T (ret a) s Q.
Proof. intros HQ h. apply wp_ret. exists []. split; [constructor|exact HQ]. Qed.
Lemma T_gets {A} (f : d126 -> A) s (Q : A -> d126 -> list cop -> Prop) : Q (f s) s [] -> T (gets f) s Q.
Proof. intros HQ h. apply wp_gets. exists []. split; [constructor|exact HQ]. Qed.
Lemma T_modify f s (Q : unit -> d126 -> list cop -> Prop) : Q tt (f s) [] -> T (modify f) s Q.
Proof. intros HQ h. apply wp_modify. exists []. split; [constructor|exact HQ]. Qed.
Lemma T_emit e s (Q : unit -> d126 -> list cop -> Prop) : quiet e = true -> e <> HWaitBusy -> Q tt s [CD e] -> T (emit e) s Q.
Proof. intros He Hn HQ h. apply wp_emit; [exact He|]. exists [CD e]. split; [apply likes_one; split; [reflexivity|exact Hn]|exact HQ]. Qed.
Definition opt (b : bool) (e : hev) : list cop := if b then [CD e] else [].
Lemma T_when (b : bool) e s (Q : unit -> d126 -> list cop -> Prop) : quiet e = true -> e <> HWaitBusy -> Q tt s (opt b e) -> T (when b (emit e)) s Q.
Proof. intros He Hn HQ. destruct b; [apply T_emit|apply T_ret]; assumption. Qed.
Lemma T_deref s o (Q : hal_opts -> d126 -> list cop -> Prop) : b_hal s = Some o -> Q o s [] -> T deref s Q.
Proof. intros Ho HQ h. apply (wp_deref _ _ _ o Ho). exists []. split; [constructor|exact HQ]. Qed.
Lemma T_get {A} (l : list A) i v s (Q : A -> d126 -> list cop -> Prop) : peek l i = Some v -> Q v s [] -> T (arr_get l i) s Q.
Proof. intros Hv HQ h. apply (wp_get _ _ v); [exact Hv|]. exists []. split; [constructor|exact HQ]. Qed.
Lemma T_weaken {A} (m : D126 A) s (Q Q' : A -> d126 -> list cop -> Prop) : T m s Q -> (forall a s1 b, Q a s1 b -> Q' a s1 b) -> T m s Q'.
Proof. intros Hm HW h. eapply wp_weaken; [apply Hm|]. intros a s1 i (b & L & HQ). exists b. auto. Qed.
Lemma T_cmd cmd buf s (Q : unit -> d126 -> list cop -> Prop) : on s -> cmd < 18 \/ 30 < cmd -> Q tt (awake s) [CW (b_sleep s) (cmd :: buf)] -> T (write_command H cmd buf) s Q.
Proof. intros Ho Hc HQ h. apply wp_write_command; [exact Ho|]. intros l x Hl Hx. eexists. split; [|exact HQ]. apply likes_one. exists l, x. auto. Qed.
Lemma T_wregs a vs s (Q : unit -> d126 -> list cop -> Prop) : on s -> Q tt (awake s) [CW (b_sleep s) (13 :: Z.shiftr a 8 :: Z.land a 255 :: vs)] -> T (write_registers H a vs) s Q.
Proof. intros Ho HQ h. apply wp_write_registers; [exact Ho|]. intros l x Hl Hx. eexists. split; [|exact HQ]. apply likes_one. exists l, x. repeat split; auto. cbn. lia. Qed.
Lemma T_wreg a v s (Q : unit -> d126 -> list cop -> Prop) : on s -> Q tt (awake s) [CW (b_sleep s) [13; Z.shiftr a 8; Z.land a 255; v]] -> T (write_register H a v) s Q.
Proof. intros Ho HQ h. apply wp_write_register; [exact Ho|]. intros l x Hl Hx. eexists. split; [|exact HQ]. apply likes_one. exists l, x. repeat split; auto. cbn. lia. Qed.
Lemma T_wbuf off vs s (Q : unit -> d126 -> list cop -> Prop) : on s -> Q tt (awake s) [CW (b_sleep s) (14 :: off :: vs)] -> T (write_buffer H off vs) s Q.
Proof. intros Ho HQ h. apply wp_write_buffer; [exact Ho|]. intros l x Hl Hx. eexists. split; [|exact HQ]. apply likes_one. exists l, x. repeat split; auto. cbn. lia. Qed.
Lemma T_status cmd n s (Q : list Z -> d126 -> list cop -> Prop) : on s -> status cmd = true ->
  (forall vs, length vs = n -> bytes_ok vs -> Q vs (awake s) [CS (b_sleep s) cmd vs]) -> T (read_command H cmd n) s Q.
Proof. intros Ho Hc HQ h. apply wp_read_command; [exact HH|exact Ho|]. intros l x y rs Hl Hx Hr Hn Hb. eexists. split; [|apply HQ; assumption]. apply likes_one. exists l, x, y. repeat split; auto. Qed.
Lemma T_rregs a n s (Q : list Z -> d126 -> list cop -> Prop) : on s ->
  (forall vs, length vs = n -> bytes_ok vs -> Q vs (awake s) [CG (b_sleep s) a vs]) -> T (read_registers H a n) s Q.
Proof. intros Ho HQ h. apply wp_read_registers; [exact HH|exact Ho|]. intros l x y rs Hl Hx Hr Hn Hb. eexists. split; [|apply HQ; assumption]. apply likes_one. exists l, x, y. repeat split; auto. Qed.
Lemma T_rreg a s (Q : Z -> d126 -> list cop -> Prop) : on s ->
  (forall v, is_byte v -> Q v (awake s) [CG (b_sleep s) a [v]]) -> T (read_register H a) s Q.
Proof.
  intros Ho HQ h. apply wp_read_register; [exact HH|exact Ho|]. intros l x y rs Hl Hx Hr Hn Hb. destruct rs as [|v [|]]; try discriminate. cbn [nth].
  eexists. split; [|apply HQ; inversion Hb; assumption]. apply likes_one. exists l, x, y. repeat split; auto.
Qed.
Lemma T_rbuf off n s (Q : list Z -> d126 -> list cop -> Prop) : on s ->
  (forall vs, length vs = n -> bytes_ok vs -> Q vs (awake s) [CB (b_sleep s) off vs]) -> T (read_buffer H off n) s Q.
Proof. intros Ho HQ h. apply wp_read_buffer; [exact HH|exact Ho|]. intros l x y rs Hl Hx Hr Hn Hb. eexists. split; [|apply HQ; assumption]. apply likes_one. exists l, x, y. repeat split; auto. Qed.

(** ** The calls, one by one *)
Definition frf (f : Z) : Z := Z.shiftl f 25 / 32000000.
Definition frf_bytes (f : Z) : list Z := [Z.land (Z.shiftr (frf f) 24) 255; Z.land (Z.shiftr (frf f) 16) 255; Z.land (Z.shiftr (frf f) 8) 255; Z.land (frf f) 255].
Definition pkt (z : bool) (p : params) (g n : Z) : list cop :=
  [CG z 1846 [g]; CW false [13; 7; 54; if p_inverted_iq p then u8 (Z.land g (Z.lnot 4)) else u8 (Z.lor g 4)];
   CW false [140; u8 (Z.shiftr (p_preamble_len p) 8); Z.land (p_preamble_len p) 255; b2z (p_implicit_header p); n; b2z (p_crc_on p); b2z (p_inverted_iq p)]].
Definition rx_tail (hal : hal_opts) (symb t : Z) : list cop :=
  let t := if negb (t =? 0) && negb (t =? 16777215) then u32 (Z.shiftl t 6) else t in
  [CW false [160; u8 symb]; CW false [143; 0; 0]] ++ opt (has_ant hal) (HAnt true) ++ [CW false [130; u8 (Z.shiftr t 16); u8 (Z.shiftr t 8); u8 t]].
Definition sleep_ops (z : bool) (hal : hal_opts) : list cop := [CW z [132; 4]] ++ opt (has_io_deinit hal) HIoDeinit ++ [CD (HDelay 1000)].
Definition tcxo_ops (d : sx126x_opts) : list cop :=
  let t := u32 (Z.shiftl (tcxo_timeout d) 6) in
  [CW false [151; tcxo_voltage d; u8 (Z.shiftr t 16); u8 (Z.shiftr t 8); u8 t]; CW false [13; 9; 17; 0]].
Definition irq_mask (f : Z) : Z :=
  Z.lor (Z.lor (Z.lor (if Z.land f 1 =? 0 then 0 else IRQF_TX_DONE) (if Z.land f 2 =? 0 then 0 else IRQF_RX_DONE)) (if Z.land f 512 =? 0 then 0 else IRQF_RX_TIMEOUT)) (if Z.land f 64 =? 0 then 0 else IRQF_CRC_ERROR).
Definition init_head (hal : hal_opts) (d : sx126x_opts) : list cop :=
  [CD (HReset true); CD (HDelay 1000); CD (HReset false); CD (HDelay 20000)] ++ opt (has_io_deinit hal) HIoDeinit ++ [CW true [7; 0; 0]] ++ (if use_tcxo d then tcxo_ops d else []) ++ [CW false [137; 127]].
Definition init_tail (hal : hal_opts) (d : sx126x_opts) : list cop :=
  [CW false [150; b2z (use_dcdc d)]] ++ sleep_ops false hal ++ [CW true [138; 1]; CW false [13; 7; 64; 52; 68]; CW false [8; 2; 67; 2; 67; 0; 0; 0; 0]].
Definition in_range (hp : bool) (p : Z) : bool := if hp then (-9 <=? p) && (p <=? 22) else (-17 <=? p) && (p <=? 15).
Definition shape (s : d126) (o : rop) (v : rval) (s' : d126) (bs : list cop) : Prop :=
  let z := b_sleep s in
  let with_hal P := exists hal, b_hal s = Some hal /\ P hal in
  match o with
  | PInit hal d => exists e0 e1, is_byte e0 /\ is_byte e1 /\ let ok := (e0 =? 0) && (e1 =? 0) in
      v = RvBool ok /\ s' = Mk_d126 (Some hal) (Some d) false (b_handler s) (b_params s) /\
      bs = init_head hal d ++ [CS false 23 [e0; e1]] ++ if ok then init_tail hal d else []
  | PSleep => v = RvUnit /\ s' = set_b_sleep true s /\ with_hal (fun hal => bs = sleep_ops z hal)
  | PFreq f => v = RvUnit /\ s' = awake s /\ bs = [CW z [152; 215; 219]; CW false (134 :: frf_bytes f)]
  | PPower p => exists d, b_opts s = Some d /\
      if in_range (is_hp d) p then
        v = RvBool true /\ s' = awake s /\
        if is_hp d then exists g, is_byte g /\ bs = [CG z 2264 [g]; CW false [13; 8; 216; Z.lor g 30]; CW false [13; 8; 231; 56]; CW false [149; 4; 7; 0; 1]; CW false [142; u8 p; 2]]
        else bs = [CW z [13; 8; 231; 24]] ++ if p =? 15 then [CW false [149; 6; 0; 1; 1]; CW false [142; 14; 2]] else [CW false [149; 4; 0; 1; 1]; CW false [142; u8 p; 2]]
      else v = RvBool false /\ s' = s /\ bs = []
  | PPublic b => v = RvUnit /\ s' = awake s /\ bs = [CW z (13 :: 7 :: 64 :: if b then [52; 68] else [20; 36])]
  | PSetup p => v = RvUnit /\ s' = set_b_params p (awake s) /\ with_hal (fun hal =>
      bs = [CW z [139; nth (Z.to_nat (p_sf p)) sf_table 0; nth (Z.to_nat (p_bw p)) bw_table 0; nth (Z.to_nat (p_cr p)) cr_table 0; if SF_11 <=? p_sf p then 1 else 0]] ++ opt (has_io_init hal) HIoInit)
  | PTx buf => v = RvUnit /\ s' = awake s /\ with_hal (fun hal => exists g, is_byte g /\
      bs = pkt z (b_params s) g (len buf) ++ [CW false [143; 0; 0]; CW false (14 :: 0 :: buf)] ++ opt (has_ant hal) (HAnt false) ++ [CW false [131; 0; 0; 0]])
  | PRx n symb t => v = RvUnit /\ s' = awake s /\ with_hal (fun hal => exists g, is_byte g /\ bs = pkt z (b_params s) g n ++ rx_tail hal symb t)
  | PRead cap => s' = awake s /\ exists n off data p0 p1 p2, is_byte n /\ is_byte off /\ bytes_ok data /\ len data = Z.min n cap /\ is_byte p0 /\ is_byte p1 /\ is_byte p2 /\
      v = RvPkt (Mk_rxpkt data (Z.quot (- p0) 2) (Z.quot (s8 p1) 4)) /\ bs = [CS z 19 [n; off]; CB false off data; CS false 20 [p0; p1; p2]]
  | PRand => s' = set_b_sleep true s /\ with_hal (fun hal => exists g r0 r1 r2 r3, is_byte g /\ is_byte r0 /\ is_byte r1 /\ is_byte r2 /\ is_byte r3 /\
      v = RvNum (r0 + 256 * r1 + 65536 * r2 + 16777216 * r3) /\
      bs = pkt z (b_params s) g 255 ++ rx_tail hal 0 16777215 ++ [CG false 2073 [r0; r1; r2; r3]] ++ sleep_ops false hal)
  | PIrq => s' = awake s /\ exists x y, is_byte x /\ is_byte y /\ let f := Z.lor (Z.shiftl x 8) y in
      v = RvNum (irq_mask f) /\ bs = [CS z 18 [x; y]; CW false [2; x; y]] ++ opt (b_handler s) (HUser (irq_mask f))
  | PHandler b => v = RvUnit /\ s' = set_b_handler b s /\ bs = []
  end.
Lemma awake2 s : awake (awake s) = awake s. Proof. reflexivity. Qed.
Ltac tn := rewrite ?app_nil_r, <- ?app_assoc; cbn [app].
Lemma T_as_b (m : D126 bool) s Q : T m s (fun b s1 bs => Q (RvBool b) s1 bs) -> T (as_b m) s Q.
Proof. intro X. apply T_bind. eapply T_weaken; [exact X|]. intros a s1 b HQ. apply T_ret. rewrite app_nil_r. exact HQ. Qed.
Lemma T_as_u (m : D126 unit) s Q : T m s (fun _ s1 bs => Q RvUnit s1 bs) -> T (as_u m) s Q.
Proof. intro X. apply T_bind. eapply T_weaken; [exact X|]. intros a s1 b HQ. apply T_ret. rewrite app_nil_r. exact HQ. Qed.
Lemma T_as_n (m : D126 Z) s Q : T m s (fun n s1 bs => Q (RvNum n) s1 bs) -> T (as_n m) s Q.
Proof. intro X. apply T_bind. eapply T_weaken; [exact X|]. intros a s1 b HQ. apply T_ret. rewrite app_nil_r. exact HQ. Qed.
Lemma T_as_p (m : D126 rxpkt) s Q : T m s (fun n s1 bs => Q (RvPkt n) s1 bs) -> T (as_p m) s Q.
Proof. intro X. apply T_bind. eapply T_weaken; [exact X|]. intros a s1 b HQ. apply T_ret. rewrite app_nil_r. exact HQ. Qed.
Ltac reg := first [left; reflexivity | right; reflexivity].
Ltac oo := first [eassumption | eexists; cbn; eassumption | eexists; cbn; reflexivity].
Ltac cmd := first [apply T_cmd; [oo|reg|] | apply T_wregs; [oo|] | apply T_wreg; [oo|] | apply T_wbuf; [oo|]].
Lemma T_sleep s o (Q : unit -> d126 -> list cop -> Prop) : b_hal s = Some o -> Q tt (set_b_sleep true s) (sleep_ops (b_sleep s) o) -> T (sx126x_sleep H) s Q.
Proof.
  intros Ho HQ. unfold sx126x_sleep. apply T_bind. cmd. apply T_bind, T_deref with (o := o); [exact Ho|]. apply T_bind, T_when; [reflexivity|discriminate|].
  apply T_bind, T_emit; [reflexivity|discriminate|]. apply T_modify. tn. exact HQ.
Qed.
Lemma T_pkt n s (Q : unit -> d126 -> list cop -> Prop) : on s -> (forall g, is_byte g -> Q tt (awake s) (pkt (b_sleep s) (b_params s) g n)) -> T (apply_packet_params H n) s Q.
Proof.
  intros Ho HQ. unfold apply_packet_params, set_packet_params. apply T_bind, T_gets. apply T_bind, T_rreg; [exact Ho|]. intros g Bg. apply T_bind. cmd. cmd.
  rewrite !awake2. tn. apply HQ, Bg.
Qed.
Lemma T_rx n symb t s o (Q : unit -> d126 -> list cop -> Prop) : b_hal s = Some o ->
  (forall g, is_byte g -> Q tt (awake s) (pkt (b_sleep s) (b_params s) g n ++ rx_tail o symb t)) -> T (sx126x_rx H n symb t) s Q.
Proof.
  intros Ho HQ. unfold sx126x_rx. apply T_bind, T_pkt; [oo|]. intros g Bg. apply T_bind. cmd. apply T_bind. cmd. apply T_bind, T_deref with (o := o); [exact Ho|].
  apply T_bind, T_when; [reflexivity|discriminate|]. cbv zeta. cmd. rewrite !awake2. unfold rx_tail in HQ. specialize (HQ g Bg). tn. cbn [app] in HQ. exact HQ.
Qed.
Lemma T_tcxo d s (Q : unit -> d126 -> list cop -> Prop) : on s -> b_sleep s = false -> Q tt s (tcxo_ops d) -> T (setup_tcxo H (tcxo_voltage d) (tcxo_timeout d)) s Q.
Proof.
  intros Ho Hs HQ. unfold setup_tcxo. apply T_bind. cmd. cmd. rewrite awake2. replace (awake s) with s by (destruct s; cbn in Hs; subst; reflexivity). rewrite Hs. exact HQ.
Qed.
Lemma two (vs : list Z) : length vs = 2%nat -> bytes_ok vs -> exists a b, vs = [a; b] /\ is_byte a /\ is_byte b.
Proof. intros L B. destruct vs as [|a [|b [|]]]; try discriminate. inversion B as [|? ? B1 B2]; subst. inversion B2; subst. eauto. Qed.
Lemma three (vs : list Z) : length vs = 3%nat -> bytes_ok vs -> exists a b c, vs = [a; b; c] /\ is_byte a /\ is_byte b /\ is_byte c.
Proof. intros L B. destruct vs as [|a [|b [|c [|]]]]; try discriminate. inversion B as [|? ? B1 B2]; subst. inversion B2 as [|? ? B3 B4]; subst. inversion B4; subst. exists a, b, c. auto. Qed.
Lemma four (vs : list Z) : length vs = 4%nat -> bytes_ok vs -> exists a b c d, vs = [a; b; c; d] /\ is_byte a /\ is_byte b /\ is_byte c /\ is_byte d.
Proof. intros L B. destruct vs as [|a [|b [|c [|d [|]]]]]; try discriminate. inversion B as [|? ? B1 B2]; subst. inversion B2 as [|? ? B3 B4]; subst. inversion B4 as [|? ? B5 B6]; subst. inversion B6; subst. exists a, b, c, d. auto 6. Qed.
Lemma sh_init s o d : T (call126 H (PInit o d)) s (shape s (PInit o d)).
Proof.
  apply T_as_b. unfold sx126x_init. apply T_bind, T_modify. apply T_bind, T_modify.
  do 4 (apply T_bind, T_emit; [reflexivity|discriminate|]). apply T_bind, T_when; [reflexivity|discriminate|].
  apply T_bind, T_modify. apply T_bind. cmd. cbn [app].
  set (s1 := awake _). assert (E1 : s1 = Mk_d126 (Some o) (Some d) false (b_handler s) (b_params s)) by reflexivity.
  assert (Ho : b_hal s1 = Some o) by reflexivity. assert (Hd : b_opts s1 = Some d) by reflexivity. assert (Hz : b_sleep s1 = false) by reflexivity. clearbody s1.
  assert (Ha : awake s1 = s1) by (rewrite E1; reflexivity).
  assert (K : forall q, (forall bs, bs = init_head o d -> T q s1 (fun v s' b2 => shape s (PInit o d) (RvBool v) s' (bs ++ b2))) ->
    T (when (use_tcxo d) (setup_tcxo H (tcxo_voltage d) (tcxo_timeout d)) ;;; write_command H CMD_CALIBRATE [127] ;;; q) s1
      (fun v s' b2 => shape s (PInit o d) (RvBool v) s' ([CD (HReset true); CD (HDelay 1000); CD (HReset false); CD (HDelay 20000)] ++ opt (has_io_deinit o) HIoDeinit ++ [CW true [7; 0; 0]] ++ b2))).
  { intros q Hq. apply T_bind. unfold init_head in Hq. destruct (use_tcxo d).
    - apply T_tcxo; [exists o; exact Ho|exact Hz|]. apply T_bind. apply T_cmd; [exists o; exact Ho|reg|]. rewrite Ha, Hz.
      eapply T_weaken; [apply Hq; reflexivity|]. intros v s' b2 X. repeat (cbn [app] in X; rewrite <- app_assoc in X). cbn [app] in X. tn. exact X.
    - apply T_ret. apply T_bind. apply T_cmd; [exists o; exact Ho|reg|]. rewrite Ha, Hz.
      eapply T_weaken; [apply Hq; reflexivity|]. intros v s' b2 X. repeat (cbn [app] in X; rewrite <- app_assoc in X). cbn [app] in X. tn. exact X. }
  eapply T_weaken; [apply K|].
  2: { intros v s' b2 X. exact X. }
  intros bs ->. apply T_bind. apply T_status; [exists o; exact Ho|reflexivity|]. intros vs L B. destruct (two vs L B) as (e0 & e1 & -> & B0 & B1). rewrite Ha, Hz.
  assert (E : forallb (Z.eqb 0) [e0; e1] = (e0 =? 0) && (e1 =? 0)) by (cbn [forallb]; rewrite (Z.eqb_sym 0 e0), (Z.eqb_sym 0 e1); destruct (e0 =? 0), (e1 =? 0); reflexivity). rewrite E.
  destruct ((e0 =? 0) && (e1 =? 0)) eqn:E2; cbn [negb].
  - apply T_bind. apply T_cmd; [exists o; exact Ho|reg|]. rewrite Ha, Hz. apply T_bind. apply (T_sleep _ o); [exact Ho|]. rewrite Hz. apply T_bind. cmd. apply T_bind. unfold sx126x_set_public_network. cmd.
    cbv zeta. apply T_bind. cmd. apply T_ret. exists e0, e1. cbv zeta. rewrite E2. split; [exact B0|]. split; [exact B1|]. split; [reflexivity|]. split; [rewrite E1; reflexivity|].
    unfold init_tail. tn. reflexivity.
  - apply T_ret. exists e0, e1. cbv zeta. rewrite E2. split; [exact B0|]. split; [exact B1|]. split; [reflexivity|]. split; [exact E1|]. tn. reflexivity.
Qed.
Lemma sh_sleep s o : b_hal s = Some o -> T (call126 H PSleep) s (shape s PSleep).
Proof. intro Ho. apply T_as_u, (T_sleep _ o); [exact Ho|]. repeat split. exists o. auto. Qed.
Lemma sh_freq s f : on s -> T (call126 H (PFreq f)) s (shape s (PFreq f)).
Proof. intro Ho. apply T_as_u. unfold sx126x_set_freq. apply T_bind. cmd. cbv zeta. cmd. repeat split. Qed.
Lemma sh_power s p d : on s -> b_opts s = Some d -> T (call126 H (PPower p)) s (shape s (PPower p)).
Proof.
  intros Ho Hd. apply T_as_b. unfold sx126x_set_power. apply T_bind, T_gets. rewrite Hd. cbv zeta. cbn [shape]. unfold in_range. destruct (is_hp d) eqn:Eh; cbn [negb].
  - destruct ((22 <? p) || (p <? -9)) eqn:E.
    + apply T_ret. exists d. split; [exact Hd|]. rewrite Eh. replace ((-9 <=? p) && (p <=? 22)) with false by lia. repeat split.
    + apply T_bind, T_rreg; [exact Ho|]. intros g Bg. do 2 (apply T_bind; cmd). do 2 (apply T_bind; cmd). apply T_ret. exists d. split; [exact Hd|]. rewrite Eh.
      replace ((-9 <=? p) && (p <=? 22)) with true by lia. repeat split. exists g. split; [exact Bg|]. reflexivity.
  - destruct ((15 <? p) || (p <? -17)) eqn:E.
    + apply T_ret. exists d. split; [exact Hd|]. rewrite Eh. replace ((-17 <=? p) && (p <=? 15)) with false by lia. repeat split.
    + apply T_bind. cmd. destruct (p =? 15) eqn:E15; do 2 (apply T_bind; cmd); apply T_ret; exists d; (split; [exact Hd|]); rewrite Eh; replace ((-17 <=? p) && (p <=? 15)) with true by lia; rewrite ?E15; repeat split.
Qed.
Lemma sh_public s b : on s -> T (call126 H (PPublic b)) s (shape s (PPublic b)).
Proof. intro Ho. apply T_as_u. unfold sx126x_set_public_network. cmd. repeat split. Qed.
Lemma peek_nth (l : list Z) i : 0 <= i < len l -> peek l i = Some (nth (Z.to_nat i) l 0).
Proof. intro Hi. unfold peek. replace (i <? 0) with false by lia. apply nth_error_nth'. unfold len in Hi. lia. Qed.
Lemma sh_setup s p o : b_hal s = Some o -> params_wf p -> T (call126 H (PSetup p)) s (shape s (PSetup p)).
Proof.
  intros Ho (W1 & W2 & W3 & _). apply T_as_u. unfold sx126x_setup.
  eapply T_bind, T_get; [apply peek_nth; cbn; lia|]. eapply T_bind, T_get; [apply peek_nth; cbn; lia|]. eapply T_bind, T_get; [apply peek_nth; cbn; lia|].
  cbv zeta. apply T_bind. cmd. apply T_bind, T_modify. apply T_bind, T_deref with (o := o); [exact Ho|]. apply T_when; [reflexivity|discriminate|].
  repeat split. exists o. split; [exact Ho|]. reflexivity.
Qed.
Lemma sh_tx s buf o : b_hal s = Some o -> T (call126 H (PTx buf)) s (shape s (PTx buf)).
Proof.
  intros Ho. apply T_as_u. unfold sx126x_tx. apply T_bind, T_pkt; [oo|]. intros g Bg. apply T_bind. cmd. apply T_bind. cmd. apply T_bind, T_deref with (o := o); [exact Ho|].
  apply T_bind, T_when; [reflexivity|discriminate|]. cmd. repeat split. exists o. split; [exact Ho|]. exists g. split; [exact Bg|]. reflexivity.
Qed.
Lemma sh_rx s n symb t o : b_hal s = Some o -> T (call126 H (PRx n symb t)) s (shape s (PRx n symb t)).
Proof. intros Ho. apply T_as_u. apply (T_rx _ _ _ _ o); [exact Ho|]. intros g Bg. repeat split. exists o. split; [exact Ho|]. exists g. auto. Qed.
Lemma sh_read s cap : on s -> is_byte cap -> T (call126 H (PRead cap)) s (shape s (PRead cap)).
Proof.
  intros Ho Hc. apply T_as_p. unfold sx126x_read_packet. apply T_bind, T_status; [exact Ho|reflexivity|]. intros vs L B. destruct (two vs L B) as (n & off & -> & Bn & Boff).
  apply T_bind, T_get with (v := n); [reflexivity|]. apply T_bind, T_get with (v := off); [reflexivity|]. cbv zeta.
  apply T_bind, T_rbuf; [oo|]. intros data Ld Bd. apply T_bind, T_status; [oo|reflexivity|]. intros ps Lp Bp. destruct (three ps Lp Bp) as (p0 & p1 & p2 & -> & B0 & B1 & B2).
  apply T_bind, T_get with (v := p0); [reflexivity|]. apply T_bind, T_get with (v := p1); [reflexivity|]. apply T_ret. split; [reflexivity|].
  exists n, off, data, p0, p1, p2. split; [exact Bn|]. split; [exact Boff|]. split; [exact Bd|]. split.
  { unfold len. rewrite Ld. unfold is_byte in *. destruct (n <? cap) eqn:E; lia. }
  repeat (split; [assumption|]). split; reflexivity.
Qed.
Lemma sh_rand s o : b_hal s = Some o -> T (call126 H PRand) s (shape s PRand).
Proof.
  intros Ho. apply T_as_n. unfold sx126x_rand. apply T_bind, (T_rx _ _ _ _ o); [exact Ho|]. intros g Bg. apply T_bind, T_rregs; [oo|]. intros vs L B.
  destruct (four vs L B) as (r0 & r1 & r2 & r3 & -> & B0 & B1 & B2 & B3).
  apply T_bind, T_get with (v := r0); [reflexivity|]. apply T_bind, T_get with (v := r1); [reflexivity|]. apply T_bind, T_get with (v := r2); [reflexivity|]. apply T_bind, T_get with (v := r3); [reflexivity|].
  apply T_bind, (T_sleep _ o); [exact Ho|]. apply T_ret. split; [reflexivity|]. exists o. split; [exact Ho|]. exists g, r0, r1, r2, r3. repeat (split; [assumption|]). split; [reflexivity|]. tn. reflexivity.
Qed.
Lemma sh_irq s : on s -> T (call126 H PIrq) s (shape s PIrq).
Proof.
  intros Ho. apply T_as_n. unfold sx126x_irq_handler. apply T_bind, T_status; [exact Ho|reflexivity|]. intros vs L B. destruct (two vs L B) as (x & y & -> & Bx & By).
  apply T_bind. cmd. apply T_bind, T_get with (v := x); [reflexivity|]. apply T_bind, T_get with (v := y); [reflexivity|]. cbv zeta.
  set (f := Z.lor (Z.shiftl x 8) y).
  match goal with |- T (u <- gets b_handler ;; when u (emit (HUser ?r)) ;;; ret ?r') _ _ => assert (X : r = irq_mask f) end.
  { unfold irq_mask. destruct (Z.land f 1 =? 0), (Z.land f 2 =? 0), (Z.land f 512 =? 0), (Z.land f 64 =? 0); reflexivity. }
  rewrite X. apply T_bind, T_gets. apply T_bind, T_when; [reflexivity|discriminate|]. apply T_ret. split; [reflexivity|]. exists x, y. split; [exact Bx|]. split; [exact By|]. cbv zeta. split; [reflexivity|]. tn. reflexivity.
Qed.
Theorem call126_shape s o : rop_wf o -> ((exists hal d, o = PInit hal d) \/ on s /\ exists d, b_opts s = Some d) -> T (call126 H o) s (shape s o).
Proof.
  intros W Hi. destruct o as [hal d| | | | | |buf|n symb t|cap| | |b].
  1: apply sh_init. 11: { apply T_as_u, T_modify. repeat split. }
  all: destruct Hi as [(? & ? & ?)|[Ho Hd]]; [discriminate|]; pose proof Ho as [o Ho']; destruct Hd as [d Hd].
  - apply (sh_sleep _ o Ho').
  - apply sh_freq; assumption.
  - apply (sh_power _ _ d); assumption.
  - apply sh_public; assumption.
  - apply (sh_setup _ _ o Ho' W).
  - apply (sh_tx _ _ o Ho').
  - apply (sh_rx _ _ _ _ o Ho').
  - apply sh_read; assumption.
  - apply (sh_rand _ o Ho').
  - apply sh_irq; assumption.
Qed.
End T.
