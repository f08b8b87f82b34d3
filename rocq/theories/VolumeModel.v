(** Volume statistics, quota and speed meter: daemon/nntp/StatMeter.cpp.

    [None] stands for an access outside an array (undefined behaviour for the
    [operator\[\]] accesses of AddData, an exception std::out_of_range for the
    [at] accesses of CalcQuotaUsage).  int64 counters are unbounded integers;
    the conversions of time_t to int are modelled ([to_int]). *)
From Verif Require Import Base CalendarModel CalendarSpec.

(** Conversion of a 64-bit value to int (two's complement, as on all supported
    platforms). *)
Definition to_int (t : Z) : Z := (t + 2147483648) mod 4294967296 - 2147483648.

(** Array access. *)
Definition at_ (l : list Z) (i : Z) : option Z :=
  if i <? 0 then None else nth_error l (Z.to_nat i).
Fixpoint set_nth (l : list Z) (i : nat) (v : Z) : list Z :=
  match l, i with
  | [], _ => []
  | _ :: r, O => v :: r
  | x :: r, S k => x :: set_nth r k v
  end.
Definition put (l : list Z) (i v : Z) : option (list Z) :=
  match at_ l i with Some _ => Some (set_nth l (Z.to_nat i) v) | None => None end.
Definition add_at (l : list Z) (i b : Z) : option (list Z) :=
  match at_ l i with Some x => Some (set_nth l (Z.to_nat i) (x + b)) | None => None end.

(** class ServerVolume, StatMeter.h 57-71 (m_customTime left out). *)
Record volume := mkV {
  v_sec : list Z; v_min : list Z; v_hour : list Z; v_days : list Z;
  v_first : Z; v_total : Z; v_custom : Z; v_time : Z;
  v_ss : Z; v_ms : Z; v_hs : Z; v_ds : Z
}.

Definition new_volume : volume :=
  mkV (repeat 0 60) (repeat 0 60) (repeat 0 24) [] 0 0 0 0 0 0 0 0.

(** StatMeter.cpp 29-30. *)
Definition DAYS_UP_TO_2013 : Z := 15706.
Definition TWENTY_YEARS : Z := 366 * 20.

(** std::vector::resize to a larger size. *)
Definition grow (l : list Z) (n : Z) : list Z :=
  l ++ repeat 0 (Z.to_nat n - length l).

(** ServerVolume::CalcSlots, 32-56. *)
Definition calc_slots (loc : Z) (v : volume) : volume :=
  let t := to_int loc in
  let ss := Z.rem t 60 in
  let ms := Z.rem (Z.quot t 60) 60 in
  let hs := Z.quot (Z.rem t 86400) 3600 in
  let day := Z.quot t 86400 in
  let ds := day - DAYS_UP_TO_2013 + 1 in
  if (0 <=? ds) && (ds <? TWENTY_YEARS) then
    let first := if (v_first v =? 0) || (day <? v_first v) then day else v_first v in
    let ds := day - first in
    let days := if Z.of_nat (length (v_days v)) <? ds + 1 then grow (v_days v) (ds + 1) else v_days v in
    mkV (v_sec v) (v_min v) (v_hour v) days first (v_total v) (v_custom v) (v_time v) ss ms hs ds
  else
    mkV (v_sec v) (v_min v) (v_hour v) (v_days v) (v_first v) (v_total v) (v_custom v) (v_time v)
        ss ms hs (-1).

(** The clearing loops 81-87, 93-99, 105-111: [i] counts up, [n] rounds are left. *)
Fixpoint clear_loop (n : nat) (i slot sign size : Z) (ring : list Z) : option (list Z) :=
  match n with
  | O => Some ring
  | S k =>
      let nul := slot - i * sign in
      let nul := if nul <? 0 then nul + size else nul in
      let nul := if size <=? nul then nul - size else nul in
      match put ring nul 0 with
      | Some r => clear_loop k (i + 1) slot sign size r
      | None => None
      end
  end.

Definition bind {A B} (x : option A) (f : A -> option B) : option B :=
  match x with Some a => f a | None => None end.

(** ServerVolume::AddData, 58-126.  [cur] is the clock, [off] the local time
    offset. *)
Definition add_data (cur off bytes : Z) (v0 : volume) : option volume :=
  let loc := cur + off in
  let locdata := v_time v0 + off in
  let v := calc_slots loc v0 in
  bind (if loc =? locdata then Some (v_sec v, v_min v, v_hour v)
        else
          let td := to_int (loc - locdata) in
          let sign := if 0 <=? td then 1 else -1 in
          let td := Z.abs td in
          let sd := if sign <? 0 then td + 1 else td in
          let sd := if 60 <=? sd then 60 else sd in
          let md := Z.quot td 60 in
          let md := if sign <? 0 then md + 1 else md in
          let md := if 60 <=? Z.abs md then 60 else md in
          let md := if (md =? 0) && negb (v_ms v =? v_ms v0) then 1 else md in
          let hd := Z.quot td 3600 in
          let hd := if sign <? 0 then hd + 1 else hd in
          let hd := if 24 <=? hd then 24 else hd in
          let hd := if (hd =? 0) && negb (v_hs v =? v_hs v0) then 1 else hd in
          bind (clear_loop (Z.to_nat sd) 0 (v_ss v) sign 60 (v_sec v)) (fun s =>
          bind (clear_loop (Z.to_nat md) 0 (v_ms v) sign 60 (v_min v)) (fun m =>
          bind (clear_loop (Z.to_nat hd) 0 (v_hs v) sign 24 (v_hour v)) (fun h =>
          Some (s, m, h)))))
    (fun smh =>
      let '(s, m, h) := smh in
      bind (add_at s (v_ss v) bytes) (fun s =>
      bind (add_at m (v_ms v) bytes) (fun m =>
      bind (add_at h (v_hs v) bytes) (fun h =>
      bind (if 0 <=? v_ds v then add_at (v_days v) (v_ds v) bytes else Some (v_days v)) (fun d =>
      Some (mkV s m h d (v_first v) (v_total v + bytes) (v_custom v + bytes) cur
                (v_ss v) (v_ms v) (v_hs v) (v_ds v))))))).

(** A history of reports (clock, bytes), oldest first. *)
Fixpoint add_all (off : Z) (l : list (Z * Z)) (v : volume) : option volume :=
  match l with
  | [] => Some v
  | (t, b) :: r => bind (add_data t off b v) (add_all off r)
  end.

(** StatMeter::AddServerData, 404-415, on the list of volumes. *)
Definition add_on (cur off bytes : Z) (i : nat) (l : list volume) : option (list volume) :=
  match nth_error l i with
  | Some v => bind (add_data cur off bytes v) (fun v' => Some (firstn i l ++ v' :: skipn (S i) l))
  | None => None
  end.
Definition add_server_data (cur off bytes : Z) (sid : nat) (l : list volume) : option (list volume) :=
  if bytes =? 0 then Some l
  else bind (add_on cur off bytes 0 l) (add_on cur off bytes sid).

(** A history of reports (clock, bytes, server). *)
Fixpoint server_all (off : Z) (ops : list (Z * Z * nat)) (l : list volume) : option (list volume) :=
  match ops with
  | [] => Some l
  | (t, b, sid) :: r => bind (add_server_data t off b sid l) (server_all off r)
  end.

(** ** Quota *)

(** gmtime_r for times from 1970 on: the date of the day and the time of day. *)
Definition gmdate (t : Z) : date := date_after (Z.to_nat (t / 86400)).
Definition gmtm (t : Z) : tm :=
  let '(y, m, d) := gmdate t in
  mkTm (y - 1900) (m - 1) d (t mod 86400 / 3600) (t mod 3600 / 60) (t mod 60).

Definition with_mon_day (t : tm) (mon mday : Z) : tm :=
  mkTm (tm_year t) mon mday (tm_hour t) (tm_min t) (tm_sec t).

(** StatMeter::CalcMonthSlots, 515-544; [start] is the option QuotaStartDay. *)
Definition calc_month_slots (loc start : Z) : Z :=
  let p := gmtm loc in
  if tm_mday p <? start then
    let p1 := with_mon_day p (tm_mon p - 1) start in
    let prev := timegm p1 in
    let prev := if tm_mday (gmtm prev) =? start then prev
                else timegm (with_mon_day p1 (tm_mon p1 + 1) 1) in
    Z.quot (Z.quot (Z.quot (to_int (loc - prev)) 60) 60) 24 + 1
  else tm_mday p - start + 1.

(** The loop 503-510: [n] bounds the number of rounds. *)
Fixpoint month_loop (n : nat) (slot endslot : Z) (days : list Z) : option Z :=
  match n with
  | O => Some 0
  | S k =>
      if (0 <=? slot) && (endslot <? slot) then
        let x := if slot <? Z.of_nat (length days) then at_ days slot else Some 0 in
        bind x (fun a => bind (month_loop k (slot - 1) endslot days) (fun b => Some (a + b)))
      else Some 0
  end.

(** StatMeter::CalcQuotaUsage, 485-513: (monthBytes, dayBytes). *)
Definition calc_quota (loc start : Z) (v : volume) : option (Z * Z) :=
  let slot := to_int (Z.quot loc 86400) - v_first v in
  bind (if slot <? Z.of_nat (length (v_days v)) then at_ (v_days v) slot else Some 0) (fun day =>
  let el := calc_month_slots loc start in
  let endslot := Z.max (slot - el) (-1) in
  bind (month_loop (Z.to_nat (slot + 1)) slot endslot (v_days v)) (fun month =>
  Some (month, day))).

(** ** Speed meter *)

(** StatMeter.h 98-107. *)
Record meter := mkM {
  sm_bytes : list Z; sm_total : Z; sm_times : list Z; sm_start : Z;
  sm_corr : Z; sm_idx : Z; sm_cur : Z; sm_curtime : Z; sm_all : Z
}.

Definition SLOTS : nat := 30.

(** ResetSpeedStat, 361-375 (m_allBytes is kept). *)
Definition reset_speed (cur all : Z) : meter :=
  mkM (repeat 0 SLOTS) 0 (repeat (to_int cur) SLOTS) (to_int cur) cur 0 0 0 all.

Fixpoint zsum (l : list Z) : Z := match l with [] => 0 | x :: r => x + zsum r end.

(** The loop 319-338: after one round the time of the current slot is nowSlot, so
    there is at most one round; [n] bounds the number of rounds. *)
Fixpoint speed_loop (n : nat) (now : Z) (m : meter) : option meter :=
  match at_ (sm_times m) (sm_idx m) with
  | None => None
  | Some t =>
      if t <? now then
        match n with
        | O => None
        | S k =>
            let i := if 30 <=? sm_idx m + 1 then 0 else sm_idx m + 1 in
            bind (at_ (sm_bytes m) i) (fun out =>
            bind (at_ (sm_times m) i) (fun st =>
            bind (put (sm_bytes m) i 0) (fun b =>
            bind (put (sm_times m) i now) (fun ts =>
            speed_loop k now (mkM b (sm_total m - out) ts st (sm_corr m) i (sm_cur m) (sm_curtime m) (sm_all m))))))
        end
      else Some m
  end.

(** AddSpeedReading, 307-359. *)
Definition add_speed (cur bytes : Z) (m : meter) : option meter :=
  let now := to_int cur in
  let m0 := mkM (sm_bytes m) (sm_total m) (sm_times m) (sm_start m) (sm_corr m) (sm_idx m)
                ((if cur =? sm_curtime m then sm_cur m else 0) + bytes)
                (if cur =? sm_curtime m then sm_curtime m else cur) (sm_all m) in
  bind (speed_loop 1 now m0) (fun m1 =>
  let total := if sm_corr m1 <? cur then zsum (sm_bytes m1) else sm_total m1 in
  let corr := if sm_corr m1 <? cur then cur else sm_corr m1 in
  let st := if total =? 0 then now else sm_start m1 in
  bind (add_at (sm_bytes m1) (sm_idx m1) bytes) (fun b =>
  Some (mkM b (total + bytes) (sm_times m1) st corr (sm_idx m1) (sm_cur m1) (sm_curtime m1)
            (sm_all m1 + bytes)))).

(** CalcCurrentDownloadSpeed, 283-297, not in standby. *)
Definition current_speed (cur : Z) (m : meter) : Z :=
  let d := to_int cur - sm_start m in
  if d =? 0 then 0 else Z.quot (sm_total m) d.
(** CalcMomentaryDownloadSpeed, 300-305. *)
Definition momentary_speed (cur : Z) (m : meter) : Z :=
  if cur =? sm_curtime m then sm_cur m else 0.

(** A sequence of (clock, bytes) readings after a reset. *)
Fixpoint speed_all (l : list (Z * Z)) (m : meter) : option meter :=
  match l with
  | [] => Some m
  | (t, b) :: r => bind (add_speed t b m) (speed_all r)
  end.
