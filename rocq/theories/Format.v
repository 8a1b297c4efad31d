(** The allocation strategy: /repo/src/disk/format.rs. *)
From Verif Require Import Base Layout Block Bam.

(** Checked u8 arithmetic. *)
Definition u8_add (a b : nat) : res nat := if a + b <? 256 then Ok (a + b) else Panic.
Definition u8_sub (a b : nat) : res nat := if b <=? a then Ok (a - b) else Panic.

(** The distance loop of first_free_track: lines 156-176. *)
Fixpoint first_free_track_loop (f : disk_format) (b : bam) (ds : list nat)
    : res (nat * bam_entry) :=
  match ds with
  | [] => Err EDiskFull
  | distance :: ds =>
      let? bottom :=
        (if distance <=? directory_track f then
           let track := directory_track f - distance in
           if first_track f <=? track then
             let? e := bam_entry_at b track in
             Ok (if has_availability e then Some (track, e) else None)
           else Ok None
         else Ok None) in
      match bottom with
      | Some r => Ok r
      | None =>
          let? track := u8_add (directory_track f) distance in
          let? top :=
            (if track <=? last_track f then
               let? e := bam_entry_at b track in
               Ok (if has_availability e then Some (track, e) else None)
             else Ok None) in
          match top with
          | Some r => Ok r
          | None => first_free_track_loop f b ds
          end
      end
  end.

(** first_free_track: lines 151-177. *)
Definition first_free_track (f : disk_format) (b : bam) : res (nat * bam_entry) :=
  let? lo := u8_sub (directory_track f) (first_track f) in
  let? up := u8_add (last_track f) 1 in
  let? hi := u8_sub up (directory_track f) in
  first_free_track_loop f b (range_incl 1 (Nat.max lo hi)).

(** The sector loop of first_free_block: lines 188-195. *)
Fixpoint first_free_sector (s n : nat) (m : N) : option nat :=
  match n with
  | 0 => None
  | S n => if N.testbit m 0 then Some s else first_free_sector (S s) n (N.shiftr m 1)
  end.

(** The inner loop of next_free_track_geos: lines 250-259. *)
Fixpoint geos_skip (fuel : nat) (f : disk_format) (track passes : nat) (reset : bool)
    : res (nat * nat * bool) :=
  match fuel with
  | 0 => NoFuel
  | S fuel =>
      if is_reserved_track f track then
        let? track := u8_add track 1 in
        if last_track f <? track then
          let? passes := u8_sub passes 1 in
          geos_skip fuel f (first_track f) passes true
        else geos_skip fuel f track passes reset
      else Ok (track, passes, reset)
  end.

(** The part of the loop body of next_free_track_geos after the availability
    check: lines 234-259. *)
Definition geos_advance (f : disk_format) (track passes : nat) (reset : bool)
    : res (nat * nat * bool) :=
  if track =? directory_track f then Err EDiskFull
  else
    let? track := u8_add track 1 in
    let? (track, passes, reset) :=
      (if last_track f <? track then
         let? passes := u8_sub passes 1 in Ok (first_track f, passes, true)
       else Ok (track, passes, reset)) in
    geos_skip 256 f track passes reset.

(** The inner loop of next_free_track_cbm, downwards: lines 309-311. *)
Fixpoint skip_down (f : disk_format) (track : nat) : nat :=
  match track with
  | 0 => 0
  | S t => if is_reserved_track f track then skip_down f t else track
  end.

(** The inner loop of next_free_track_cbm, upwards: lines 329-331. *)
Fixpoint skip_up (fuel : nat) (f : disk_format) (track : nat) : res nat :=
  match fuel with
  | 0 => NoFuel
  | S fuel =>
      if is_reserved_track f track then
        let? track := u8_add track 1 in skip_up fuel f track
      else Ok track
  end.

(** The part of the loop body of next_free_track_cbm after the availability
    check: lines 305-339. *)
Definition cbm_advance (f : disk_format) (track passes : nat) (reset : bool)
    : res (nat * nat * bool) :=
  match Nat.compare track (directory_track f) with
  | Lt =>
      let? track := u8_sub track 1 in
      let track := skip_down f track in
      if track <? first_track f then
        let? track := u8_add (directory_track f) 1 in
        let? passes := u8_sub passes 1 in
        Ok (track, passes, true)
      else Ok (track, passes, reset)
  | Eq => Err EDiskFull
  | Gt =>
      let? track := u8_add track 1 in
      let? track := skip_up 256 f track in
      if last_track f <? track then
        let? track := u8_sub (directory_track f) 1 in
        let? passes := u8_sub passes 1 in
        Ok (track, passes, true)
      else Ok (track, passes, reset)
  end.

(** The outer loops of next_free_track_geos (lines 227-261) and
    next_free_track_cbm (lines 295-341), which differ only in how they advance. *)
Fixpoint track_loop (fuel : nat)
    (advance : nat -> nat -> bool -> res (nat * nat * bool))
    (b : bam) (track passes : nat) (reset : bool) : res (nat * bam_entry * bool) :=
  match fuel with
  | 0 => NoFuel
  | S fuel =>
      if passes =? 0 then Err EDiskFull
      else
        let? e := bam_entry_at b track in
        if has_availability e then Ok (track, e, reset)
        else
          let? (track, passes, reset) := advance track passes reset in
          track_loop fuel advance b track passes reset
  end.

Definition track_fuel : nat := 512.

(** next_free_track_geos: lines 204-262. *)
Definition next_free_track_geos (f : disk_format) (b : bam) (previous : nat)
    : res (nat * bam_entry * bool) :=
  let passes := if previous =? first_track f then 1 else 2 in
  track_loop track_fuel (geos_advance f) b previous passes false.

(** next_free_track_cbm: lines 266-342. *)
Definition next_free_track_cbm (f : disk_format) (b : bam) (previous : nat)
    : res (nat * bam_entry * bool) :=
  track_loop track_fuel (cbm_advance f) b previous 3 false.

(** next_free_track: lines 346-356. *)
Definition next_free_track (f : disk_format) (b : bam) (previous : nat)
    : res (nat * bam_entry * bool) :=
  if geos f then next_free_track_geos f b previous else next_free_track_cbm f b previous.

(** The starting sector before wrapping: lines 366-396. *)
Definition skewed_sector (f : disk_format) (previous : location) (track : nat)
    (reset : bool) : res nat :=
  let il := if track =? directory_track f then directory_interleave f else interleave f in
  if reset then Ok 0
  else if negb (geos f) || (track =? fst previous) then
    let? sector := u8_add (snd previous) il in
    if geos f && (25 <=? track) then u8_sub sector 1 else Ok sector
  else
    let? d := u8_sub track (fst previous) in
    let? d := u8_add d d in
    let? d := u8_add d 4 in
    u8_add d il.

(** The wrapping loop: lines 399-406. *)
Fixpoint wrap_sector (fuel : nat) (f : disk_format) (num_sectors sector : nat) : res nat :=
  match fuel with
  | 0 => NoFuel
  | S fuel =>
      if num_sectors <=? sector then
        let sector := sector - num_sectors in
        let sector := if (0 <? sector) && negb (geos f) then sector - 1 else sector in
        wrap_sector fuel f num_sectors sector
      else Ok sector
  end.

(** The scan loop: lines 411-427. Shifting a 64-bit value by 64 or more panics. *)
Fixpoint scan_sector (fuel : nat) (num_sectors start : nat) (m : N) (sector : nat) : res nat :=
  match fuel with
  | 0 => NoFuel
  | S fuel =>
      if 64 <=? sector then Panic
      else if N.testbit m (N.of_nat sector) then Ok sector
      else
        let sector := if num_sectors <=? sector + 1 then 0 else sector + 1 in
        if sector =? start then Err EInvalidBAM
        else scan_sector fuel num_sectors start m sector
  end.

(** next_free_block_from_previous: lines 358-428. *)
Definition next_free_block_from_previous (f : disk_format) (b : bam) (previous : location)
    : res location :=
  let? (track, e, reset) := next_free_track f b (fst previous) in
  let num_sectors := sectors_in_track f track in
  let? sector := skewed_sector f previous track reset in
  let? sector := wrap_sector 256 f num_sectors sector in
  let? sector := scan_sector 256 num_sectors sector (e_map e) sector in
  Ok (track, sector).

(** first_free_block: lines 179-200. *)
Definition first_free_block (f : disk_format) (b : bam) : res location :=
  if geos f then next_free_block_from_previous f b (first_track f, 0)
  else
    let? (track, e) := first_free_track f b in
    match first_free_sector 0 (sectors_in_track f track) (e_map e) with
    | Some s => Ok (track, s)
    | None => Err EDiskFull
    end.

(** DiskFormat::next_free_block: lines 430-435. *)
Definition fmt_next_free_block (f : disk_format) (b : bam) (previous : option location)
    : res location :=
  match previous with
  | Some p => next_free_block_from_previous f b p
  | None => first_free_block f b
  end.

(** Bam::next_free_block: /repo/src/disk/bam.rs lines 298-301. *)
Definition bam_next_free_block (b : bam) (previous : option location) : res location :=
  let? _ := check_validity b in
  fmt_next_free_block (b_format b) b previous.
