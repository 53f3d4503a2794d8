(** SpecChan.v -- the channel table as a finite map; region tables and CFList. *)
From Verif Require Export SpecMac.

Definition ctable := list (Z * bool).        (* 16 entries: frequency (0 = undefined), enabled *)
Definition table (w : world) : ctable := chan_table (w_st w).
Definition map_set (i f : Z) (t : ctable) : err * ctable :=
  if 16 <=? i then (ERR_CHANNEL, t)
  else if legal_freq f then (ERR_NO, upd (Z.to_nat i) (f, true) t)
  else (ERR_FREQUENCY, t).
Definition map_enable (i : Z) (en : bool) (t : ctable) : err * ctable :=
  if 16 <=? i then (ERR_CHANNEL, t)
  else let f := fst (nth (Z.to_nat i) t (0, false)) in
  if en && (f =? 0) then (ERR_CHANNEL, t) else (ERR_NO, upd (Z.to_nat i) (f, en) t).
(** the region's default channels *)
Definition region_defaults (r : region) : list Z :=
  match r with EU868 => [868100000; 868300000; 868500000] | RU864 => [868900000; 869100000] end.
(** [put_from k fs t]: channels [k], [k+1], ... become [fs], enabled *)
Fixpoint put_from (k : nat) (fs : list Z) (t : ctable) : ctable :=
  match fs with [] => t | f :: fs' => put_from (S k) fs' (upd k (f, true) t) end.
Definition table_init (r : region) (t : ctable) : ctable :=
  put_from 0 (region_defaults r) (map (fun e => (fst e, false)) t).
(** nothing but the channel table differs *)
Definition only_table (w w' : world) : Prop :=
  w_hist w' = w_hist w /\ s_adr (w_st w') = s_adr (w_st w) /\ s_mac (w_st w') = s_mac (w_st w) /\
  s_ses (w_st w') = s_ses (w_st w) /\ s_stk (w_st w') = s_stk (w_st w) /\ s_cs (w_st w') = s_cs (w_st w).

(** ** CFList of a join-accept (LoRaWAN Regional Parameters, EU868/RU864): 16
    bytes, five 24-bit frequencies in units of 100 Hz and a type byte. *)
Definition cf_freq_hz (cflist : list Z) (k : nat) : Z := 100 * unle (slice cflist (3 * k) 3).
Definition cf_put (i : nat) (f : Z) (t : ctable) : ctable :=
  if f =? 0 then upd i (fst (nth i t (0, false)), false) t
  else if legal_freq f then upd i (f, true) t
  else t.
Definition cflist_apply (r : region) (cflist : list Z) (t : ctable) : ctable :=
  if at_ cflist 15 =? 0
  then fold_left (fun t k => cf_put (length (region_defaults r) + k) (cf_freq_hz cflist k) t) (seq 0 5) t
  else t.
