(** SpecKey.v -- vocabulary of the statements about the calls to the crypto functions
    the application supplies (include/uwan/stack.h:180-186). *)
From Verif Require Export SpecTx.

(** ** What the crypto functions are asked *)
(** the AES encryptions: key of the open context and block *)
Fixpoint aes_from (open : option (list Z)) (es : list ev) : list (list Z * list Z) :=
  match es with
  | [] => []
  | CAesNew k :: es' => aes_from (Some k) es'
  | CAesDel :: es' => aes_from None es'
  | CAesEnc b :: es' => match open with Some k => [(k, b)] | None => [] end ++ aes_from open es'
  | _ :: es' => aes_from open es'
  end.
(** the CMACs finished: key of the open context and everything fed to it *)
Fixpoint cmac_from (open : option (list Z * list Z)) (es : list ev) : list (list Z * list Z) :=
  match es with
  | [] => []
  | CCmacNew k :: es' => cmac_from (Some (k, [])) es'
  | CCmacUpd d :: es' => cmac_from (match open with Some (k, m) => Some (k, m ++ d) | None => None end) es'
  | CCmacFin :: es' => match open with Some x => [x] | None => [] end ++ cmac_from open es'
  | CCmacDel :: es' => cmac_from None es'
  | _ :: es' => cmac_from open es'
  end.
Definition aes_calls (es : list ev) : list (list Z * list Z) := aes_from None es.
Definition cmac_calls (es : list ev) : list (list Z * list Z) := cmac_from None es.
(** other crypto functions *)
Definition with_crypto (aes cmac : list Z -> list Z -> list Z) (E : env) : env :=
  Mk_env aes cmac (e_rand E) (e_radio_rand E) (e_pkt E) (e_battery E) (e_devtime E) (e_unixtime E) (e_strict_shl E).
(** that answer the same to a list of calls *)
Definition same_on (f g : list Z -> list Z -> list Z) (calls : list (list Z * list Z)) : Prop :=
  forall k x, In (k, x) calls -> f k x = g k x.

(** ** What they have to be asked *)
(** the blocks A_1, A_2, ... for a payload of [n] bytes, LoRaWAN 4.3.3 *)
Definition payload_blocks (key : list Z) (dir addr cnt : Z) (n : nat) : list (list Z * list Z) :=
  map (fun i => (key, block_a dir addr cnt (Z.of_nat i))) (seq 1 ((n + 15) / 16)).
(** the message of the MIC of a data frame with the bytes [b], 4.4 *)
Definition mic_input (dir addr cnt : Z) (b : list Z) : list Z := block_b0 dir addr cnt (len b) ++ b.
(** length of the FRMPayload field of a data frame *)
Definition frm_len (f : list Z) : nat := (length f - 13 - fr_fopts_len f)%nat.
(** a data downlink for the session that is not a repetition: its MIC is looked at *)
Definition mic_checked (w : world) (d : list Z) : Prop :=
  (12 <= length d)%nat /\ fr_down d /\ fr_addr d = dev_addr (ses w) /\ fr_sized d /\ ~ (f_cnt_down (ses w) <> 0 /\ fr_cnt16 d = f_cnt_down (ses w) mod 65536).
(** the key of a data downlink's payload, 4.3.3 *)
Definition payload_key (w : world) (d : list Z) : list Z :=
  if at_ d (8 + fr_fopts_len d)%nat =? 0 then nwk_s_key (ses w) else app_s_key (ses w).
(** a frame with the header and length of a join-accept; its blocks, 6.2.5 *)
Definition ja_shaped (d : list Z) : Prop := (length d = 17%nat \/ length d = 33%nat) /\ at_ d 0 = 32.
Definition ja_cipher_blocks (d : list Z) : list (list Z) := slice d 1 16 :: (if (length d =? 33)%nat then [slice d 17 16] else []).
(** the block a session key is derived from, 6.2.5 *)
Definition key_block (kind : Z) (D : list Z) (nonce : Z) : list Z := [kind] ++ slice D 1 6 ++ le 2 nonce ++ repeat 0 7.

(** the AES blocks of the data uplinks in a trace: the keystream they are encrypted with *)
Definition up_blocks (tr : list entry) : list (list Z * list Z) :=
  flat_map (fun t => match fst (fst t), tx_frames (snd t) with OJoin, _ | _, [] => [] | _, _ => aes_calls (snd t) end) tr.
