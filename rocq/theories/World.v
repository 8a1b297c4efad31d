(** The state of an open disk and its initialisation and formatting:
    /repo/src/disk/mod.rs, with the per-type accessors of d64.rs, d71.rs, d81.rs. *)
From Verif Require Import Base Layout Block Bam Format Petscii GeosTypes DirEntry Header.

(** struct D64 (d64.rs lines 137-142; D71, D81 alike) together with the block
    device it shares with the open files and the heap of BAM cells. A BAM
    reference (an [Rc<RefCell<Bam>>], bam.rs line 11) is an index into
    [w_cells]; file handles and writers keep such indices. Reference counting is not modelled, and
    [borrow]/[borrow_mut] conflicts do not occur in the modelled functions. *)
Record world := mk_world {
  w_type : disk_type;
  w_dev : dev;
  w_header : option header;
  w_fmt : option disk_format;
  w_bam : option nat;
  w_cells : list bam
}.

Definition set_dev (d : dev) (w : world) : world :=
  mk_world (w_type w) d (w_header w) (w_fmt w) (w_bam w) (w_cells w).
Definition set_header (h : option header) (w : world) : world :=
  mk_world (w_type w) (w_dev w) h (w_fmt w) (w_bam w) (w_cells w).
Definition set_fmt (f : option disk_format) (w : world) : world :=
  mk_world (w_type w) (w_dev w) (w_header w) f (w_bam w) (w_cells w).
Definition set_cell (c : nat) (b : bam) (w : world) : world :=
  mk_world (w_type w) (w_dev w) (w_header w) (w_fmt w) (w_bam w) (<[c := b]> (w_cells w)).

(** Run a device operation on the device of the world. *)
Definition on_dev {A} (m : st dev A) : st world A := zoom w_dev set_dev m.

(** native_disk_format: d64.rs lines 214-216. *)
Definition native (w : world) : disk_format := native_format (w_type w).

(** disk_format: d64.rs lines 218-223. *)
Definition w_disk_format (w : world) : res disk_format :=
  match w_fmt w with Some f => Ok f | None => Err EUnformatted end.

(** header: d64.rs lines 248-253. *)
Definition w_get_header (w : world) : res header :=
  match w_header w with Some h => Ok h | None => Err EUnformatted end.

(** bam: d64.rs lines 275-280. *)
Definition w_get_bam (w : world) : res nat :=
  match w_bam w with Some c => Ok c | None => Err EUnformatted end.

(** [bam.borrow()]: the contents of a cell (cells are never removed). *)
Definition cell (w : world) (c : nat) : res bam :=
  match w_cells w !! c with Some b => Ok b | None => Panic end.

(** [bam.borrow_mut()] followed by an update of the BAM. *)
Definition update_cell (c : nat) (f : bam -> res bam) : st world unit :=
  do! b := asks (fun w => cell w c) in
  do! b' := lift (f b) in
  modify (set_cell c b').

(** [bam.borrow_mut().flush()]. *)
Definition flush_cell (c : nat) : st world unit :=
  do! b := asks (fun w => cell w c) in
  on_dev (bam_flush b).

(** set_bam: mod.rs lines 200-220. *)
Definition set_bam (new : option bam) (w : world) : world :=
  match new with
  | Some b =>
      match w_bam w with
      | Some c => set_cell c b w
      | None =>
          mk_world (w_type w) (w_dev w) (w_header w) (w_fmt w)
            (Some (length (w_cells w))) (w_cells w ++ [b])
      end
  | None =>
      match w_bam w with
      | Some c =>
          mk_world (w_type w) (w_dev w) (w_header w) (w_fmt w) None
            (alter bam_invalidate c (w_cells w))
      | None => w
      end
  end.

(** [Result::ok] *)
Definition res_ok {A} (r : res A) : option A :=
  match r with Ok a => Some a | _ => None end.

(** Disk::initialize: mod.rs lines 242-281. *)
Definition initialize (w : world) : world :=
  let df := native w in
  let header := res_ok (header_read (w_dev w) (header_fmt df)) in
  let bam :=
    match header with
    | Some _ => res_ok (bam_read (w_dev w) df)
    | None => None
    end in
  let format :=
    match header with
    | Some h => Some (match h_geos h with Some _ => set_geos true df | None => df end)
    | None => None
    end in
  let bam :=
    match format, bam with
    | Some f, Some b => Some (bam_set_format f b)
    | _, _ => bam
    end in
  set_fmt format (set_bam bam (set_header header w)).

(** D64::new etc. after the geometry has been chosen: d64.rs lines 152-161. *)
Definition open_world (t : disk_type) (d : dev) : world :=
  initialize (mk_world t d None None None []).

(** Body of the zeroing loop of write_format: mod.rs lines 292-297 ([take]
    limits it to the 256 bytes a sector has). *)
Definition zero_sector (l : location) : st dev unit :=
  sector_mut l (fun b => repeat 0 (length b)).

(** The locations visited by the zeroing loop: mod.rs lines 289-299. *)
Definition zero_locations (f : disk_format) (g : geometry) : list location :=
  concat (map (fun t => map (fun s => (t, s)) (seq 0 (sectors (tracks f !!! t))))
              (range_incl (first_track f) (g_tracks g))).

(** Allocation of the system sectors: mod.rs lines 323-325. *)
Fixpoint allocate_list (b : bam) (ls : list location) : res bam :=
  match ls with
  | [] => Ok b
  | l :: ls => let? b := bam_allocate b l in allocate_list b ls
  end.

(** Disk::write_format: mod.rs lines 285-335. *)
Definition write_format (name : list nat) (id : nat * nat) : st world unit :=
  do! df := gets native in
  do! g := gets (fun w => d_geom (w_dev w)) in
  do_ (on_dev (for_each zero_sector (zero_locations df g))) in
  do_ (on_dev (sector_mut (first_directory_location df) (splice 0 [0; 255]))) in
  let header := header_new (header_fmt df) df name id in
  do_ (on_dev (header_write header (header_fmt df))) in
  do_ (modify (set_header (Some header))) in
  do! b := lift (allocate_list (bam_new df) (system_locations df)) in
  do_ (on_dev (bam_flush b)) in
  do_ (modify (set_bam (Some b))) in
  do_ (on_dev dev_flush) in
  modify initialize.

(** header_mut followed by the caller's change: d64.rs lines 255-261. *)
Definition w_header_mut (f : header -> header) : st world unit :=
  do_ (asks (fun w => check_writability (w_dev w))) in
  do! h := asks w_get_header in
  modify (set_header (Some (f h))).

(** flush_header: d64.rs lines 267-273, d71.rs lines 288-294, d81.rs lines 293-299. *)
Definition flush_header : st world unit :=
  do! h := asks w_get_header in
  do! df := gets native in
  on_dev (header_write h (header_fmt df)).

(** Disk::name: mod.rs lines 500-505. *)
Definition w_name (w : world) : option (list nat) :=
  match w_get_header w with Ok h => Some (h_disk_name h) | _ => None end.

(** Disk::blocks_free: mod.rs lines 518-522. *)
Definition w_blocks_free (w : world) : res nat :=
  let? c := w_get_bam w in
  let? b := cell w c in
  blocks_free_count b.

(** Disk::write_sector: mod.rs lines 483-492 (Disk::read_sector is [read_sector] of the device). *)
Definition w_write_sector (l : location) (data : list nat) : st world unit :=
  on_dev (write_sector l data).
