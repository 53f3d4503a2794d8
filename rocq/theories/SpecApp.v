(** SpecApp.v -- vocabulary of the statements about what each call may change. *)
From Verif Require Export SpecAdr.

(** Everything only the application decides. *)
Record app_cfg := Mk_app {
  a_region : option region;           (* uwan_init *)
  a_handlers : option mac_callbacks;  (* uwan_mac_set_handlers *)
  a_clock : option cs_cbs;            (* uwan_clock_sync_init *)
  a_adr : bool;                       (* uwan_adr_enable *)
  a_limit : Z; a_delay : Z;           (* uwan_adr_setup_ack *)
  a_dr : Z;                           (* uwan_set_dr *)
  a_nb : Z;                           (* uwan_set_nb_trans *)
  a_power : Z;                        (* uwan_set_tx_power *)
  a_eirp : Z;                         (* uwan_set_max_eirp *)
  a_dev_eui : list Z; a_app_eui : list Z; a_app_key : list Z  (* uwan_set_otaa_keys *)
}.
Definition app_of (w : world) : app_cfg :=
  let k := stk w in let a := s_adr (w_st w) in
  Mk_app (uw_region k) (mac_cbs (s_mac (w_st w))) (cs_callbacks (s_cs (w_st w))) (adr_is_enabled a) (ack_limit a) (ack_delay a)
    (default_dr k) (default_nb_trans k) (default_tx_power k) (default_max_eirp k) (uw_dev_eui k) (uw_app_eui k) (uw_app_key k).
(** at power-on: no region, no handlers, ADR off with limit 64 and delay 32, DR0,
    one transmission, power index 0, 14 dBm, identifiers zero *)
Definition app_start : app_cfg :=
  Mk_app None None None false 64 32 0 1 0 14 (repeat 0 8) (repeat 0 8) (repeat 0 16).
Definition app_call (o : op) (x : app_cfg) : app_cfg :=
  let '(Mk_app rg hd ck ad li de dr nb pw ei d a k) := x in
  match o with
  | OInit r => Mk_app (Some r) hd ck ad li de dr nb pw ei d a k
  | OSetHandlers c => Mk_app rg c ck ad li de dr nb pw ei d a k
  | OCsInit c => Mk_app rg hd c ad li de dr nb pw ei d a k
  | OAdrEnable b => Mk_app rg hd ck b li de dr nb pw ei d a k
  | OAdrSetup l y => Mk_app rg hd ck ad l y dr nb pw ei d a k
  | OSetDr y => if y <=? 5 then Mk_app rg hd ck ad li de y nb pw ei d a k else x
  | OSetNb n => if (1 <=? n) && (n <=? 15) then Mk_app rg hd ck ad li de dr n pw ei d a k else x
  | OSetTxp p => if p <=? 7 then Mk_app rg hd ck ad li de dr nb p ei d a k else x
  | OSetEirp e => Mk_app rg hd ck ad li de dr nb pw e d a k
  | OSetOtaa d' a' k' => Mk_app rg hd ck ad li de dr nb pw ei d' a' k'
  | _ => x
  end.

(** the channel table after a call that receives nothing *)
Definition table_call (o : op) (t : ctable) : ctable :=
  match o with
  | OInit r => table_init r t
  | OSetChannel i f => snd (map_set i f t)
  | OEnableChannel i e => snd (map_enable i e t)
  | _ => t
  end.

(** the session after a call that receives nothing; [dr] is the application's
    data rate *)
Definition no_session : session := Mk_session false false 0 0 0 0 (repeat 0 16) (repeat 0 16).
Definition accepted (v : val) : bool := match v with VErr ERR_NO => true | _ => false end.
Definition session_call (o : op) (v : val) (dr : Z) (r r' : session) : Prop :=
  match o with
  | OInit _ => r' = no_session
  | OSetSession a u d n p => r' = Mk_session true false dr a u d n p
  | OSetDr d => r' = if d <=? 5 then Mk_session (is_joined r) (ack_required r) d (dev_addr r) (f_cnt_up r) (f_cnt_down r) (nwk_s_key r) (app_s_key r) else r
  | OJoin => r' = if accepted v then Mk_session false (ack_required r) (ses_dr r) (dev_addr r) (f_cnt_up r) (f_cnt_down r) (nwk_s_key r) (app_s_key r) else r
  | OSend _ _ _ | OCsSendReq _ | OCsSendAns =>
      if accepted v then
        (ses_dr r' = ses_dr r \/ ses_dr r' = ses_dr r - 1) /\
        r' = Mk_session (is_joined r) false (ses_dr r') (dev_addr r) ((f_cnt_up r + 1) mod 4294967296) (f_cnt_down r) (nwk_s_key r) (app_s_key r)
      else r' = r
  | _ => r' = r
  end.

(** calls that only ask *)
Definition asks (o : op) : bool :=
  match o with OIsJoined | OGetMax | OAdrIs | OCsPending => true | _ => false end.

(** [seeded h]: the generator was last seeded with a number the radio had just
    supplied, and not seeded since *)
Definition is_seed (e : ev) : bool := match e with LSrand _ => true | _ => false end.
Definition seeded (h : list ev) : Prop :=
  exists a s b, h = a ++ [RSetHandler; RRand s; LSrand s] ++ b /\ existsb is_seed b = false.
