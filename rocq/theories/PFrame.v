(** PFrame.v -- proofs about the frame buffer, encryption and MIC. *)
From Verif Require Export PMac Stack Spec.

(** one-step rules for the accessors of the state components *)
Section Acc.
  Context {A B : Type}.
  Implicit Types (h : list ev) (s : st).
  Lemma bind_get_ch (g : chans -> A) (f : A -> C B) h s : bind (get_ch g) f h s = f (g (s_ch s)) h s.
  Proof. exact (bind_gets _ f h s). Qed.
  Lemma bind_get_adr (g : adrst -> A) (f : A -> C B) h s : bind (get_adr g) f h s = f (g (s_adr s)) h s.
  Proof. exact (bind_gets _ f h s). Qed.
  Lemma bind_get_mac (g : macst -> A) (f : A -> C B) h s : bind (get_mac g) f h s = f (g (s_mac s)) h s.
  Proof. exact (bind_gets _ f h s). Qed.
  Lemma bind_get_ses (g : session -> A) (f : A -> C B) h s : bind (get_ses g) f h s = f (g (s_ses s)) h s.
  Proof. exact (bind_gets _ f h s). Qed.
  Lemma bind_get_stk (g : stackst -> A) (f : A -> C B) h s : bind (get_stk g) f h s = f (g (s_stk s)) h s.
  Proof. exact (bind_gets _ f h s). Qed.
  Lemma bind_get_cs (g : csync -> A) (f : A -> C B) h s : bind (get_cs g) f h s = f (g (s_cs s)) h s.
  Proof. exact (bind_gets _ f h s). Qed.
  Lemma bind_mod_ch g (f : unit -> C B) h s : bind (mod_ch g) f h s = f tt h (on_ch g s).
  Proof. exact (bind_modify _ f h s). Qed.
  Lemma bind_mod_adr g (f : unit -> C B) h s : bind (mod_adr g) f h s = f tt h (on_adr g s).
  Proof. exact (bind_modify _ f h s). Qed.
  Lemma bind_mod_mac g (f : unit -> C B) h s : bind (mod_mac g) f h s = f tt h (on_mac g s).
  Proof. exact (bind_modify _ f h s). Qed.
  Lemma bind_mod_ses g (f : unit -> C B) h s : bind (mod_ses g) f h s = f tt h (on_ses g s).
  Proof. exact (bind_modify _ f h s). Qed.
  Lemma bind_mod_stk g (f : unit -> C B) h s : bind (mod_stk g) f h s = f tt h (on_stk g s).
  Proof. exact (bind_modify _ f h s). Qed.
  Lemma bind_mod_cs g (f : unit -> C B) h s : bind (mod_cs g) f h s = f tt h (on_cs g s).
  Proof. exact (bind_modify _ f h s). Qed.
  Lemma bind_mod_params g (f : unit -> C B) h s :
    bind (mod_params g) f h s = f tt h (on_stk (fun k => set_pkt_params (g (pkt_params k)) k) s).
  Proof. exact (bind_modify _ f h s). Qed.
End Acc.

Ltac mstep := first
  [ rewrite bind_bind | rewrite bind_ret
  | rewrite bind_get_ch | rewrite bind_get_adr | rewrite bind_get_mac | rewrite bind_get_ses
  | rewrite bind_get_stk | rewrite bind_get_cs
  | rewrite bind_mod_ch | rewrite bind_mod_adr | rewrite bind_mod_mac | rewrite bind_mod_ses
  | rewrite bind_mod_stk | rewrite bind_mod_cs | rewrite bind_mod_params
  | rewrite bind_emit | rewrite bind_query ].
Ltac msteps := repeat mstep.

(** ** Byte strings *)
Lemma le_length n : forall v, length (le n v) = n.
Proof. induction n; intro; cbn [le length]; [reflexivity|]. rewrite IHn. reflexivity. Qed.
Lemma le_bytes n : forall v, bytes_ok (le n v).
Proof.
  induction n; intro; cbn [le]; constructor; [apply Z.mod_pos_bound; lia|apply IHn].
Qed.
Lemma le4 v : le 4 v = [Z.land v 255; Z.land (Z.shiftr v 8) 255; Z.land (Z.shiftr v 16) 255; Z.land (Z.shiftr v 24) 255].
Proof.
  cbn [le]. rewrite !land_255, !shiftr_div by lia.
  rewrite !Z.div_div by lia. reflexivity.
Qed.
Lemma le3 v : le 3 v = [Z.land v 255; Z.land (Z.shiftr v 8) 255; Z.land (Z.shiftr v 16) 255].
Proof.
  cbn [le]. rewrite !land_255, !shiftr_div by lia.
  rewrite !Z.div_div by lia. reflexivity.
Qed.
Lemma le2 v : le 2 v = [Z.land v 255; Z.land (Z.shiftr v 8) 255].
Proof. cbn [le]. rewrite !land_255, !shiftr_div by lia. reflexivity. Qed.
Lemma unle_le n : forall v, unle (le n v) = v mod 256 ^ Z.of_nat n.
Proof.
  induction n; intro v; cbn [le unle].
  - change (256 ^ Z.of_nat 0) with 1. rewrite Z.mod_1_r. reflexivity.
  - rewrite IHn, Nat2Z.inj_succ, Z.pow_succ_r by lia.
    rewrite Z.rem_mul_r by lia. reflexivity.
Qed.

Lemma xorl_length a : forall b, length (xorl a b) = Nat.min (length a) (length b).
Proof. induction a; destruct b; cbn; auto. Qed.
Lemma xorl_app a : forall b c d, length a = length c -> xorl (a ++ b) (c ++ d) = xorl a c ++ xorl b d.
Proof.
  induction a; destruct c; cbn; intros d H; try discriminate; [reflexivity|].
  rewrite IHa by lia. reflexivity.
Qed.
Lemma xorl_trunc a : forall b c, (length a <= length b)%nat -> xorl a (b ++ c) = xorl a b.
Proof.
  induction a; destruct b; cbn; intros; try lia; [reflexivity|destruct c; reflexivity|].
  rewrite IHa by lia. reflexivity.
Qed.
Lemma xorl_involutive a : forall b, (length a <= length b)%nat -> xorl (xorl a b) b = a.
Proof.
  induction a; destruct b; cbn; intros; try lia; [reflexivity|reflexivity|].
  rewrite IHa by lia. rewrite Z.lxor_assoc, Z.lxor_nilpotent, Z.lxor_0_r. reflexivity.
Qed.
Lemma lxor_byte a b : is_byte a -> is_byte b -> is_byte (Z.lxor a b).
Proof.
  unfold is_byte. intros Ha Hb. change 256 with (2 ^ 8) in *.
  split; [apply Z.lxor_nonneg; lia|].
  destruct (Z.eq_dec (Z.lxor a b) 0) as [->|Hn]; [reflexivity|].
  apply Z.log2_lt_pow2; [pose proof (proj2 (Z.lxor_nonneg a b)); lia|].
  pose proof (Z.log2_lxor a b ltac:(lia) ltac:(lia)).
  assert (Hl : forall x, 0 <= x < 2 ^ 8 -> Z.log2 x < 8).
  { intros x Hx. destruct (Z.eq_dec x 0) as [->|]; [cbn; lia|]. apply Z.log2_lt_pow2; lia. }
  pose proof (Hl a Ha). pose proof (Hl b Hb). lia.
Qed.
Lemma xorl_bytes a : forall b, bytes_ok a -> bytes_ok b -> bytes_ok (xorl a b).
Proof.
  induction a; destruct b; cbn; intros Ha Hb; try constructor; inversion Ha; inversion Hb; subst.
  - apply lxor_byte; assumption.
  - apply IHa; assumption.
Qed.

(** ** The frame buffer *)
Definition frame (s : st) : list Z := uw_frame (s_stk s).
Definition with_frame (f : list Z) (s : st) : st := on_stk (set_uw_frame f) s.

Lemma with_frame_self s : with_frame (frame s) s = s.
Proof. destruct s as [? ? ? ? [] ?]; reflexivity. Qed.
Lemma with_frame2 f g s : with_frame f (with_frame g s) = with_frame f s.
Proof. reflexivity. Qed.
Lemma frame_with f s : frame (with_frame f s) = f.
Proof. reflexivity. Qed.

Lemma frame_get_ok i h s : 0 <= i < len (frame s) -> frame_get i h s = Ok (get (frame s) i, s, []).
Proof. intro. unfold frame_get. rewrite bind_get_stk. apply arr_get_ok. assumption. Qed.

Lemma frame_put_ok off b h s : 0 <= off < len (frame s) -> off < 255 ->
  frame_put off b h s = Ok (off + 1, with_frame (upd (Z.to_nat off) b (frame s)) s, []).
Proof.
  intros H1 H2. unfold frame_put. rewrite bind_get_stk.
  erewrite bind_ok0; [|apply arr_set_ok; exact H1]. msteps. rewrite u8_id by lia. reflexivity.
Qed.

Lemma frame_puts_ok bs : forall off h s, 0 <= off -> off + len bs <= len (frame s) -> off + len bs <= 255 ->
  frame_puts off bs h s = Ok (off + len bs, with_frame (blit (frame s) off bs) s, []).
Proof.
  induction bs; intros off h s H1 H2 H3.
  - cbn [frame_puts]. rewrite blit_nil, with_frame_self, len_nil, Z.add_0_r. reflexivity.
  - rewrite len_cons in *. pose proof (len_nonneg bs). cbn [frame_puts].
    erewrite bind_ok0; [|apply frame_put_ok; lia].
    rewrite IHbs; rewrite ?frame_with, ?len_upd; try lia.
    rewrite blit_cons by lia. rewrite with_frame2.
    replace (off + (1 + len bs)) with (off + 1 + len bs) by lia. reflexivity.
Qed.

Lemma frame_memcpy_ok off src n h s : 0 <= off -> 0 <= n -> off + n <= len (frame s) -> n <= len src ->
  frame_memcpy off src n h s = Ok (tt, with_frame (blit (frame s) off (firstn (Z.to_nat n) src)) s, []).
Proof.
  intros. unfold frame_memcpy. rewrite bind_get_stk.
  erewrite bind_ok0; [|apply arr_memcpy_ok; assumption]. reflexivity.
Qed.

Lemma frame_read_ok off n h s : 0 <= off -> 0 <= n -> off + n <= len (frame s) ->
  frame_read off n h s = Ok (sub (frame s) off n, s, []).
Proof.
  intros. unfold frame_read. rewrite bind_get_stk. fold (frame s).
  replace ((0 <=? off) && (0 <=? n) && (off + n <=? len (frame s))) with true by lia. reflexivity.
Qed.

(** the buffer [F] overwritten at the start by [p] *)
Definition over (p F : list Z) : list Z := p ++ skipn (length p) F.
Lemma over_len p F : (length p <= length F)%nat -> length (over p F) = length F.
Proof. intro. unfold over. rewrite app_length, skipn_length. lia. Qed.
Lemma blit_over p F bs : (length p + length bs <= length F)%nat ->
  blit (over p F) (len p) bs = over (p ++ bs) F.
Proof.
  intro H. unfold over. rewrite blit_prefix by (rewrite skipn_length; lia).
  rewrite skipn_skipn', app_length. reflexivity.
Qed.
Lemma sub_over p F : sub (over p F) 0 (len p) = p.
Proof.
  unfold sub, over, len. cbn [Z.to_nat skipn]. rewrite Nat2Z.id. apply firstn_exact. reflexivity.
Qed.
Lemma over_nil F : over [] F = F.
Proof. reflexivity. Qed.
Lemma over_bytes p F : bytes_ok p -> bytes_ok F -> bytes_ok (over p F).
Proof. intros. apply bytes_app. split; [assumption|apply bytes_skipn; assumption]. Qed.

Lemma puts_over p F bs h s : frame s = over p F -> length F = 255%nat ->
  (length p + length bs <= 255)%nat ->
  frame_puts (len p) bs h s = Ok (len (p ++ bs), with_frame (over (p ++ bs) F) s, []).
Proof.
  intros Hf HF Hl.
  assert (Hlf : len (frame s) = 255) by (rewrite Hf; unfold len; rewrite over_len by lia; lia).
  rewrite frame_puts_ok; rewrite ?Hlf; unfold len in *; try lia.
  rewrite Hf. fold (len p). rewrite blit_over by lia.
  rewrite app_length. unfold len. repeat f_equal. lia.
Qed.
Lemma memcpy_over p F src n h s : frame s = over p F -> length F = 255%nat ->
  n = len src -> (length p + length src <= 255)%nat ->
  frame_memcpy (len p) src n h s = Ok (tt, with_frame (over (p ++ src) F) s, []).
Proof.
  intros Hf HF -> Hl.
  assert (Hlf : len (frame s) = 255) by (rewrite Hf; unfold len; rewrite over_len by lia; lia).
  rewrite frame_memcpy_ok; rewrite ?Hlf; unfold len in *; try lia.
  rewrite Nat2Z.id, firstn_all. rewrite Hf. fold (len p). rewrite blit_over by lia. reflexivity.
Qed.

(** ** Encryption *)
Lemma get_app_mid p x q : get (p ++ x :: q) (len p) = x.
Proof. unfold get, len. rewrite Nat2Z.id. rewrite app_nth2, Nat.sub_diag by lia. reflexivity. Qed.

Lemma upd_mid p x q y : upd (Z.to_nat (len p)) y (p ++ x :: q) = (p ++ [y]) ++ q.
Proof. rewrite upd_prefix by (cbn; lia). reflexivity. Qed.

Lemma xor_loop_ok data : forall i base pos blk pre post h s,
  frame s = pre ++ data ++ post -> len pre = base + pos -> len (frame s) <= 255 ->
  0 <= base -> 0 <= pos -> 0 <= i -> i + len data <= len blk ->
  xor_loop (length data) i base pos blk h s =
    Ok (pos + len data, with_frame (pre ++ xorl data (skipn (Z.to_nat i) blk) ++ post) s, []).
Proof.
  induction data as [|x data IH]; intros i base pos blk pre post h s Hf Hp Hl H1 H2 H3 H4.
  - cbn [length xor_loop xorl app]. rewrite <- (with_frame_self s) at 1. rewrite Hf, len_nil, Z.add_0_r. reflexivity.
  - rewrite len_cons in *. pose proof (len_nonneg data). pose proof (len_nonneg post).
    cbn [app] in Hf.
    assert (Hlf : len (frame s) = base + pos + 1 + len data + len post)
      by (rewrite Hf, len_app, len_cons, len_app; lia).
    cbn [length xor_loop].
    erewrite bind_ok0; [|apply frame_get_ok; lia].
    erewrite bind_ok0; [|apply arr_get_ok; lia].
    rewrite Hf. rewrite <- Hp, get_app_mid.
    erewrite bind_ok0; [|apply frame_put_ok; lia].
    rewrite Hf, upd_mid, u8_id by lia.
    rewrite (IH (i + 1) base (pos + 1) blk (pre ++ [Z.lxor x (get blk i)]) post);
      rewrite ?frame_with; try lia.
    2: reflexivity.
    2: { rewrite len_app. cbn. lia. }
    2: { rewrite !len_app. cbn. lia. }
    assert (Hskip : skipn (Z.to_nat i) blk = get blk i :: skipn (Z.to_nat (i + 1)) blk).
    { unfold get. unfold len in H4. replace (Z.to_nat (i + 1)) with (S (Z.to_nat i)) by lia.
      generalize (ltac:(lia) : (Z.to_nat i < length blk)%nat). generalize (Z.to_nat i). clear.
      induction blk; intros n Hn; cbn in Hn; [lia|]. destruct n; [reflexivity|].
      cbn [skipn nth]. apply IHblk. lia. }
    rewrite Hskip. cbn [xorl]. rewrite with_frame2, <- app_assoc. cbn [app].
    replace (pos + (1 + len data)) with (pos + 1 + len data) by lia. reflexivity.
Qed.

(** the encryption blocks consumed for [n] bytes *)
Fixpoint enc_evs (dir addr cnt i : Z) (blocks : nat) : list ev :=
  match blocks with
  | O => []
  | S n => CAesEnc (block_a dir addr cnt i) :: enc_evs dir addr cnt (i + 1) n
  end.
Definition nblocks (n : nat) : nat := ((n + 15) / 16)%nat.

Lemma nblocks_step n : (16 < n)%nat -> nblocks n = S (nblocks (n - 16)).
Proof.
  intro H. unfold nblocks. replace (n + 15)%nat with (n - 16 + 15 + 1 * 16)%nat by lia.
  rewrite Nat.div_add by lia. lia.
Qed.
Lemma nblocks_small n : (0 < n <= 16)%nat -> nblocks n = 1%nat.
Proof.
  intro H. unfold nblocks. symmetry. apply (Nat.div_unique _ _ _ (n - 1)); lia.
Qed.

Lemma encrypt_loop_ok E fuel : forall data key dir addr cnt i base pos pre post h s,
  env_ok E ->
  frame s = pre ++ data ++ post -> len pre = base + pos -> len (frame s) <= 255 ->
  0 <= base -> 0 <= pos -> 1 <= i -> (length data < 16 * fuel)%nat -> i + Z.of_nat (length data) / 16 < 255 ->
  encrypt_loop E fuel key ([1; 0; 0; 0; 0; dir] ++ le 4 addr ++ le 4 cnt ++ [0]) i base pos (len data) h s =
    Ok (tt, with_frame (pre ++ xorl data (stream_from (e_aes E) key dir addr cnt i (nblocks (length data))) ++ post) s,
        enc_evs dir addr cnt i (nblocks (length data))).
Proof.
  induction fuel; intros data key dir addr cnt i base pos pre post h s HE Hf Hp Hl H1 H2 H3 H4 H5; [lia|].
  cbn [encrypt_loop]. destruct (Z.ltb_spec 0 (len data)) as [Hpos|Hz].
  2: { destruct data; [|rewrite len_cons in Hz; pose proof (len_nonneg data); lia].
       cbn. rewrite <- (with_frame_self s) at 1. rewrite Hf. reflexivity. }
  rewrite bind_emit.
  replace (([1; 0; 0; 0; 0; dir] ++ le 4 addr ++ le 4 cnt ++ [0]) ++ [i]) with (block_a dir addr cnt i)
    by (unfold block_a; rewrite <- !app_assoc; reflexivity).
  set (blk := e_aes E key (block_a dir addr cnt i)).
  assert (Hblk : length blk = 16%nat) by apply (ok_aes_len E HE).
  cbv zeta. set (chunk := if 16 <=? len data then 16 else len data).
  set (d1 := firstn (Z.to_nat chunk) data). set (d2 := skipn (Z.to_nat chunk) data).
  assert (Hd : data = d1 ++ d2) by (symmetry; apply firstn_skipn).
  assert (Hc : 0 < chunk <= 16 /\ chunk <= len data) by (unfold chunk; destruct (Z.leb_spec 16 (len data)); lia).
  assert (Hd1 : length d1 = Z.to_nat chunk) by (unfold d1; rewrite firstn_length; unfold len in *; lia).
  assert (Hd2 : length d2 = (length data - Z.to_nat chunk)%nat) by (apply skipn_length).
  assert (Hlen : len data <= 255) by (rewrite Hf, !len_app in Hl; pose proof (len_nonneg pre); pose proof (len_nonneg post); lia).
  rewrite <- Hd1.
  assert (Hf' : frame s = pre ++ d1 ++ (d2 ++ post)) by (rewrite Hf, Hd at 1; rewrite <- app_assoc; reflexivity).
  assert (Hd1z : len d1 = chunk) by (unfold len; lia).
  rewrite (bind_ok0 _ _ _ _ _ _ (xor_loop_ok d1 0 base pos blk pre (d2 ++ post) _ s Hf' Hp Hl H1 H2
             ltac:(lia) ltac:(unfold len; rewrite Hblk; unfold len in Hd1z; lia))).
  rewrite Hd1z. replace (Z.to_nat 0) with 0%nat by reflexivity. cbn [skipn].
  replace (u8 (len data - chunk)) with (len d2) by (rewrite u8_id by lia; unfold len in *; lia).
  set (x1 := xorl d1 blk).
  assert (Hx1 : length x1 = Z.to_nat chunk) by (unfold x1; rewrite xorl_length; lia).
  pose proof (Z.div_pos (Z.of_nat (length data)) 16 ltac:(lia) ltac:(lia)).
  rewrite (u8_id (i + 1)) by lia.
  assert (Hi1 : i + 1 + Z.of_nat (length d2) / 16 < 255 \/ d2 = []).
  { destruct (Nat.eq_dec (length d2) 0) as [Hz0|Hz0]; [right; destruct d2; [reflexivity|cbn in Hz0; lia]|left].
    assert (chunk = 16) by (unfold chunk in *; destruct (Z.leb_spec 16 (len data)); [reflexivity|unfold len in *; lia]).
    replace (Z.of_nat (length data)) with (Z.of_nat (length d2) + 1 * 16) in H5 by lia.
    rewrite Z.div_add in H5 by lia. lia. }
  destruct (Nat.eq_dec (length d2) 0) as [Hz0|Hz0].
  - assert (d2 = []) by (destruct d2; [reflexivity|cbn in Hz0; lia]).
    assert (Hrest : forall f i' b' p' h' s', encrypt_loop E f key ([1; 0; 0; 0; 0; dir] ++ le 4 addr ++ le 4 cnt ++ [0]) i' b' p' (len d2) h' s' = Ok (tt, s', [])).
    { intros. rewrite H0. destruct f; reflexivity. }
    rewrite Hrest. cbn [addev]. rewrite nblocks_small by (unfold len in *; lia).
    cbn [stream_from enc_evs]. rewrite app_nil_r. unfold x1.
    rewrite Hd, H0. rewrite !app_nil_r. fold blk. reflexivity.
  - assert (Hch : chunk = 16) by (unfold chunk in *; destruct (Z.leb_spec 16 (len data)); [reflexivity|unfold len in *; lia]).
    destruct Hi1 as [Hi1|Hi1]; [|rewrite Hi1 in Hz0; cbn in Hz0; lia].
    rewrite (IHfuel d2 key dir addr cnt (i + 1) base (pos + chunk) (pre ++ x1) post);
      rewrite ?frame_with; try assumption; try lia.
    2: { rewrite <- app_assoc. reflexivity. }
    2: { rewrite len_app. unfold len at 2. lia. }
    2: { rewrite !len_app. rewrite Hf, !len_app in Hl. unfold len in *. lia. }
    rewrite (nblocks_step (length data)) by lia.
    replace (length data - 16)%nat with (length d2) by lia.
    cbn [addev stream_from enc_evs app]. fold blk.
    replace (xorl data (blk ++ stream_from (e_aes E) key dir addr cnt (i + 1) (nblocks (length d2))))
      with (x1 ++ xorl d2 (stream_from (e_aes E) key dir addr cnt (i + 1) (nblocks (length d2)))).
    2: { rewrite Hd at 1. rewrite xorl_app by lia. reflexivity. }
    rewrite with_frame2, <- !app_assoc. reflexivity.
Qed.

Lemma stream_length aes key dir addr cnt n : (forall k b, length (aes k b) = 16%nat) ->
  forall i, length (stream_from aes key dir addr cnt i n) = (16 * n)%nat.
Proof. intro H. induction n; intro i; cbn [stream_from]; [reflexivity|]. rewrite app_length, H, IHn. lia. Qed.
Lemma stream_app aes key dir addr cnt n : forall i m,
  stream_from aes key dir addr cnt i (n + m) =
  stream_from aes key dir addr cnt i n ++ stream_from aes key dir addr cnt (i + Z.of_nat n) m.
Proof.
  induction n; intros i m; cbn [Nat.add stream_from].
  - rewrite Z.add_0_r. reflexivity.
  - rewrite IHn, <- app_assoc. replace (i + 1 + Z.of_nat n) with (i + Z.of_nat (S n)) by lia. reflexivity.
Qed.

Lemma nblocks_bound n : (n <= 16 * nblocks n)%nat /\ (nblocks n <= n / 16 + 1)%nat.
Proof.
  unfold nblocks. pose proof (Nat.div_mod (n + 15) 16 ltac:(lia)).
  pose proof (Nat.mod_upper_bound (n + 15) 16 ltac:(lia)).
  split; [lia|]. replace (n / 16 + 1)%nat with ((n + 1 * 16) / 16)%nat by (rewrite Nat.div_add by lia; lia).
  apply Nat.div_le_mono; lia.
Qed.

(** the code's block count and the specification's agree on the result *)
Lemma crypt_nblocks aes key dir addr cnt data : (forall k b, length (aes k b) = 16%nat) ->
  xorl data (stream_from aes key dir addr cnt 1 (nblocks (length data))) = crypt aes key dir addr cnt data.
Proof.
  intro H. unfold crypt, keystream. destruct (nblocks_bound (length data)) as [B1 B2].
  replace (length data / 16 + 1)%nat with (nblocks (length data) + (length data / 16 + 1 - nblocks (length data)))%nat by lia.
  rewrite stream_app, xorl_trunc; [reflexivity|]. rewrite stream_length by exact H. exact B1.
Qed.

Lemma crypt_length aes key dir addr cnt data : (forall k b, length (aes k b) = 16%nat) ->
  length (crypt aes key dir addr cnt data) = length data.
Proof.
  intro H. rewrite <- crypt_nblocks by exact H. rewrite xorl_length, stream_length by exact H.
  pose proof (nblocks_bound (length data)). lia.
Qed.
Lemma crypt_crypt aes key dir addr cnt data : (forall k b, length (aes k b) = 16%nat) ->
  crypt aes key dir addr cnt (crypt aes key dir addr cnt data) = data.
Proof.
  intro H. unfold crypt at 1. rewrite crypt_length by exact H. unfold crypt.
  apply xorl_involutive. unfold keystream. rewrite stream_length by exact H.
  pose proof (nblocks_bound (length data)). lia.
Qed.
Lemma stream_bytes E key dir addr cnt n : env_ok E -> forall i, bytes_ok (stream_from (e_aes E) key dir addr cnt i n).
Proof.
  intro HE. induction n; intro i; cbn [stream_from]; [constructor|].
  apply bytes_app. split; [apply (ok_aes_byte E HE)|apply IHn].
Qed.
Lemma crypt_bytes E key dir addr cnt data : env_ok E -> bytes_ok data ->
  bytes_ok (crypt (e_aes E) key dir addr cnt data).
Proof. intros HE Hd. apply xorl_bytes; [exact Hd|]. apply stream_bytes. exact HE. Qed.

Definition f_cnt_of (dir : Z) (r : session) : Z := if dir =? 0 then f_cnt_up r else f_cnt_down r.
Definition crypt_evs (key : list Z) (dir addr cnt : Z) (n : nat) : list ev :=
  CAesNew key :: enc_evs dir addr cnt 1 (nblocks n) ++ [CAesDel].

Lemma encrypt_payload_ok E key dir pre data post h s : env_ok E ->
  frame s = pre ++ data ++ post -> len (frame s) <= 255 ->
  encrypt_payload E (len pre) (len data) key dir h s =
    Ok (tt, with_frame (pre ++ crypt (e_aes E) key dir (dev_addr (s_ses s)) (f_cnt_of dir (s_ses s)) data ++ post) s,
        crypt_evs key dir (dev_addr (s_ses s)) (f_cnt_of dir (s_ses s)) (length data)).
Proof.
  intros HE Hf Hl. unfold encrypt_payload. msteps. cbv zeta.
  assert (Hlen : len data <= 255) by (rewrite Hf, !len_app in Hl; pose proof (len_nonneg pre); pose proof (len_nonneg post); lia).
  rewrite if_negb. fold (f_cnt_of dir (s_ses s)). set (cnt := f_cnt_of dir (s_ses s)). set (addr := dev_addr (s_ses s)).
  match goal with |- context [encrypt_loop E 256 key ?a 1] =>
    replace a with ([1; 0; 0; 0; 0; dir] ++ le 4 addr ++ le 4 cnt ++ [0]) by (rewrite !le4; reflexivity) end.
  erewrite bind_ok; [|apply (encrypt_loop_ok E 256 data key dir addr cnt 1 (len pre) 0 pre post); try assumption; try lia].
  - unfold emit. cbn [addev]. rewrite crypt_nblocks by apply (ok_aes_len E HE). reflexivity.
  - apply len_nonneg.
  - unfold len in *. lia.
  - unfold len in *. pose proof (Z.div_le_mono (Z.of_nat (length data)) 255 16). change (255 / 16) with 15 in *. lia.
Qed.

(** MIC *)
Definition mic_evs (key prefix msg : list Z) : list ev :=
  CCmacNew key :: (match prefix with [] => [] | _ => [CCmacUpd prefix] end) ++
  [CCmacUpd msg; CCmacFin; CCmacDel].

Lemma calc_mic_b0_ok E n key dir msg h s : 0 <= n <= len (frame s) -> sub (frame s) 0 n = msg ->
  let addr := dev_addr (s_ses s) in let cnt := f_cnt_of dir (s_ses s) in
  calc_mic E n key dir true h s =
    Ok (firstn 4 (e_cmac E key (block_b0 dir addr cnt n ++ msg)), s, mic_evs key (block_b0 dir addr cnt n) msg).
Proof.
  intros Hn Hm addr cnt. unfold calc_mic. msteps. cbv zeta. msteps.
  rewrite if_negb. fold (f_cnt_of dir (s_ses s)). fold cnt addr.
  match goal with |- context [CCmacUpd ?a] =>
    replace a with (block_b0 dir addr cnt n) by (unfold block_b0; rewrite !le4; reflexivity) end.
  msteps. erewrite bind_ok0; [|apply frame_read_ok; lia].
  msteps. rewrite Hm. unfold ret. rewrite !addev_addev. cbn [addev app]. reflexivity.
Qed.
Lemma calc_mic_plain_ok E n key dir msg h s : 0 <= n <= len (frame s) -> sub (frame s) 0 n = msg ->
  calc_mic E n key dir false h s =
    Ok (firstn 4 (e_cmac E key msg), s, mic_evs key [] msg).
Proof.
  intros Hn Hm. unfold calc_mic. msteps.
  erewrite bind_ok0; [|apply frame_read_ok; lia].
  msteps. rewrite Hm. unfold ret. rewrite !addev_addev. cbn [addev app]. reflexivity.
Qed.
