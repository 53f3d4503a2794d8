(** SpecCred.v -- vocabulary of the statements about the identity and keys in use: what
    the history of calls and frames says they are. *)
From Verif Require Export SpecKey.

(** address, NwkSKey and AppSKey *)
Definition creds : Type := Z * list Z * list Z.
(** what is in force when nothing was ever given: every bit is zero *)
Definition no_creds : creds := (0, repeat 0 16, repeat 0 16).
(** those of a join-accept received as [d], LoRaWAN 6.2.5: deciphered with the AppKey given
    last, the keys derived with the DevNonce of the last request *)
Definition join_creds (E : env) (before : list entry) (d : list Z) : creds :=
  let key := last_app_key before in let D := ja_clear E key d in
  let nonce := match last_join_request before with Some f => request_nonce f | None => 0 end in
  (unle (slice D 7 4), e_aes E key (key_block 1 D nonce), e_aes E key (key_block 2 D nonce)).
Definition cred_step (E : env) (before : list entry) (c : creds) (t : entry) : creds :=
  match t with
  | (OInit _, _, _) => no_creds
  | (OSetSession a _ _ n p, _, _) => (a, n, p)
  | (_, _, es) => if accepts_join_b es then match reads es with d :: _ => join_creds E before d | [] => c end else c
  end.
Definition creds_after (E : env) (tr : list entry) : creds :=
  snd (fold_left (fun bc t => (fst bc ++ [t], cred_step E (fst bc) (snd bc) t)) tr ([], no_creds)).
(** a data downlink for these credentials with the counter [c], 4.3, 4.4 *)
Definition genuine (E : env) (k : creds) (d : list Z) (c : Z) : Prop :=
  let '(addr, nwk, app) := k in
  (12 <= length d)%nat /\ fr_down d /\ fr_sized d /\ fr_addr d = addr /\ fr_cnt16 d = c mod 65536 /\
  fr_mic d = data_mic (e_cmac E) nwk DOWN addr c (fr_body d).
