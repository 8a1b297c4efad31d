(** The block availability map: /repo/src/disk/bam.rs. *)
From Verif Require Import Base Layout Block.

(** struct BamEntry: lines 106-109. The 64-bit bitmap is an [N]. *)
Record bam_entry := mk_entry { e_free : nat; e_map : N }.

Global Instance bam_entry_eq_dec : EqDecision bam_entry.
Proof. solve_decision. Defined.
Global Instance bam_entry_inhabited : Inhabited bam_entry := populate (mk_entry 0 0%N).

(** BamFormat::tracks: lines 19-21. *)
Definition bam_tracks (ss : list bam_section) : nat := sum (map bs_tracks ss).

(** BamEntry::new: lines 112-121 ([sectors <= 64] in all layouts, so no bit is
    shifted out). *)
Fixpoint ones_map (n : nat) : N :=
  match n with
  | 0 => 0%N
  | S n => N.lor (N.shiftl (ones_map n) 1) 1
  end.
Definition entry_new (sectors : nat) : bam_entry := mk_entry sectors (ones_map sectors).

(** The loop of BamEntry::from_bytes: lines 126-130. It goes from the last byte
    to the first; at most 8 bytes are ever passed, so no bit is shifted out. *)
Definition map_from_bytes (bitmap : list nat) : N :=
  fold_left (fun m b => N.lor (N.shiftl m 8) (N.of_nat b)) (rev bitmap) 0%N.

(** BamEntry::from_bytes: lines 123-136. *)
Definition entry_from_bytes (free_sectors : nat) (bitmap : list nat) : bam_entry :=
  mk_entry free_sectors (map_from_bytes bitmap).

(** BamEntry::write_bitmap into [n] bytes: lines 138-146. *)
Fixpoint bitmap_bytes (n : nat) (m : N) : list nat :=
  match n with
  | 0 => []
  | S n => N.to_nat (N.land m 255) :: bitmap_bytes n (N.shiftr m 8)
  end.

(** BamEntry::has_availability: lines 149-151. *)
Definition has_availability (e : bam_entry) : bool := 0 <? e_free e.

(** The loop of BamEntry::update_free_sectors: lines 171-178. *)
Fixpoint count_bits (n : nat) (m : N) : nat :=
  match n with
  | 0 => 0
  | S n => (if N.testbit m 0 then 1 else 0) + count_bits n (N.shiftr m 1)
  end.

(** BamEntry::update_free_sectors: lines 170-180. *)
Definition update_free_sectors (m : N) : bam_entry := mk_entry (count_bits 64 m) m.

(** BamEntry::allocate: lines 159-162. Shifting by 64 or more panics. *)
Definition entry_allocate (e : bam_entry) (sector : nat) : res bam_entry :=
  if sector <? 64
  then Ok (update_free_sectors
             (N.land (e_map e) (N.lxor (N.ones 64) (N.shiftl 1 (N.of_nat sector)))))
  else Panic.

(** BamEntry::free: lines 165-168. *)
Definition entry_release (e : bam_entry) (sector : nat) : res bam_entry :=
  if sector <? 64
  then Ok (update_free_sectors (N.lor (e_map e) (N.shiftl 1 (N.of_nat sector))))
  else Panic.

(** struct Bam: lines 185-190. The device reference of [bam_rw] is the device of
    the world; the writer's BamFormat is that of [b_format]. *)
Record bam := mk_bam {
  b_format : disk_format;
  b_entries : list bam_entry;
  b_invalidated : bool
}.

(** Bam::new: lines 193-203. *)
Definition bam_new (f : disk_format) : bam :=
  mk_bam f (map (fun t => entry_new (sectors (tracks f !!! t)))
                (range_incl 1 (bam_tracks (bam_sections f)))) false.

(** Body of the section loop of Bam::read: lines 209-236. *)
Definition bam_read_section (d : dev) (s : bam_section) : res (list bam_entry) :=
  let? free_block := sector d (bs_free_location s) in
  let? bitmap_block :=
    (if decide (bs_bitmap_location s = bs_free_location s) then Ok free_block
     else sector d (bs_bitmap_location s)) in
  Ok (map (fun i =>
             entry_from_bytes
               (free_block !!! (bs_free_offset s + i * bs_free_stride s))
               (slice (bs_bitmap_offset s + i * bs_bitmap_stride s) (bs_bitmap_size s)
                      bitmap_block))
          (seq 0 (bs_tracks s))).

(** The section loop of Bam::read. *)
Fixpoint bam_read_sections (d : dev) (ss : list bam_section) : res (list bam_entry) :=
  match ss with
  | [] => Ok []
  | s :: ss =>
      let? es := bam_read_section d s in
      let? rest := bam_read_sections d ss in
      Ok (es ++ rest)
  end.

(** Bam::read: lines 205-243. *)
Definition bam_read (d : dev) (f : disk_format) : res bam :=
  let? es := bam_read_sections d (bam_sections f) in
  Ok (mk_bam f es false).

(** Bam::set_format: lines 255-257. *)
Definition bam_set_format (f : disk_format) (b : bam) : bam :=
  mk_bam f (b_entries b) (b_invalidated b).

(** Rendering loop for the bitmaps: lines 70-74. *)
Definition render_bitmaps (s : bam_section) (prev : nat) (es : list bam_entry)
    (block : list nat) : list nat :=
  fold_left (fun b i =>
      splice (bs_bitmap_offset s + i * bs_bitmap_stride s)
             (bitmap_bytes (bs_bitmap_size s) (e_map (es !!! (prev + i)))) b)
    (seq 0 (bs_tracks s)) block.

(** Rendering loop for the free sector counts: lines 88-91. *)
Definition render_counts (s : bam_section) (prev : nat) (es : list bam_entry)
    (block : list nat) : list nat :=
  fold_left (fun b i =>
      splice (bs_free_offset s + i * bs_free_stride s) [e_free (es !!! (prev + i))] b)
    (seq 0 (bs_tracks s)) block.

(** Body of the section loop of BamWriter::write: lines 61-100. Indexing past
    the entries panics. *)
Definition bam_write_section (s : bam_section) (prev : nat) (es : list bam_entry)
    : st dev unit :=
  do! block := asks (fun d => sector d (bs_bitmap_location s)) in
  if length es <? prev + bs_tracks s then panic else
  let block := render_bitmaps s prev es block in
  do! block :=
    (if decide (bs_bitmap_location s = bs_free_location s) then ret block
     else
       do_ (sector_mut (bs_bitmap_location s) (fun _ => block)) in
       asks (fun d => sector d (bs_free_location s))) in
  let block := render_counts s prev es block in
  sector_mut (bs_free_location s) (fun _ => block).

(** The section loop of BamWriter::write: lines 59-102. *)
Fixpoint bam_write_sections (ss : list bam_section) (prev : nat) (es : list bam_entry)
    : st dev unit :=
  match ss with
  | [] => ret tt
  | s :: ss =>
      do_ (bam_write_section s prev es) in
      bam_write_sections ss (prev + bs_tracks s) es
  end.

(** Bam::check_validity: lines 312-318. *)
Definition check_validity (b : bam) : res unit :=
  if b_invalidated b then Err EInvalidBAM else Ok tt.

(** Bam::flush: lines 303-306. *)
Definition bam_flush (b : bam) : st dev unit :=
  do_ (lift (check_validity b)) in
  bam_write_sections (bam_sections (b_format b)) 0 (b_entries b).

(** Bam::invalidate: lines 308-310. *)
Definition bam_invalidate (b : bam) : bam := mk_bam (b_format b) (b_entries b) true.

(** Bam::blocks_free: lines 265-274 ([entries[track]] panics when out of range). *)
Definition blocks_free_count (b : bam) : res nat :=
  if length (b_entries b) <? last_track (b_format b) then Panic
  else Ok (sum (map (fun t => if t =? directory_track (b_format b) - 1 then 0
                              else e_free (b_entries b !!! t))
                    (seq 0 (last_track (b_format b))))).

(** Bam::entry: lines 276-279. [track - 1] overflows for track 0. *)
Definition bam_entry_at (b : bam) (track : nat) : res bam_entry :=
  let? _ := check_validity b in
  match track with
  | 0 => Panic
  | S i => match b_entries b !! i with Some e => Ok e | None => Panic end
  end.

(** Bam::entry_mut followed by an update: lines 281-284. *)
Definition bam_update (b : bam) (l : location)
    (f : bam_entry -> nat -> res bam_entry) : res bam :=
  let? _ := check_validity b in
  let? e := bam_entry_at b (fst l) in
  let? e' := f e (snd l) in
  Ok (mk_bam (b_format b) (<[fst l - 1 := e']> (b_entries b)) (b_invalidated b)).

(** Bam::allocate: lines 286-290. *)
Definition bam_allocate (b : bam) (l : location) : res bam := bam_update b l entry_allocate.

(** Bam::free: lines 292-296. *)
Definition bam_free (b : bam) (l : location) : res bam := bam_update b l entry_release.

(** Loop over the sectors of one track in Bam::allocated_sectors and
    Bam::free_sectors: lines 323-329 and 337-343; [want] is the bit looked for. *)
Fixpoint track_sectors (want : bool) (t s n : nat) (m : N) : list location :=
  match n with
  | 0 => []
  | S n =>
      (if Bool.eqb (N.testbit m 0) want then [(t, s)] else [])
      ++ track_sectors want t (S s) n (N.shiftr m 1)
  end.

(** Bam::allocated_sectors ([want = false], lines 320-332) and
    Bam::free_sectors ([want = true], lines 334-346). *)
Definition bam_sectors (want : bool) (b : bam) : res (list location) :=
  if length (b_entries b) <? last_track (b_format b) then Panic
  else Ok (concat (map (fun t =>
             track_sectors want (t + 1) 0 (sectors (tracks (b_format b) !!! (t + 1)))
                           (e_map (b_entries b !!! t)))
           (seq 0 (last_track (b_format b))))).
Definition allocated_sectors := bam_sectors false.
Definition free_sectors := bam_sectors true.
