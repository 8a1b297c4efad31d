(** The disk image as one flat sequence of bytes, and the block device over it. *)
From Verif Require Import Base Layout.
Local Open Scope N_scope.

(** /repo/src/disk/image.rs lines 10-14 (enum Image). A memory map is modelled
    by the bytes it exposes; write-back by the operating system is not modelled. *)
Inductive image_kind := ReadOnlyMap | ReadWriteMap | Memory.
Record image := mk_image { im_kind : image_kind; im_bytes : list nat }.

(** Image::len: image.rs lines 44-50. Offsets into images are [N]. *)
Definition im_len (im : image) : N := N.of_nat (length (im_bytes im)).

(** Image::check_bounds: image.rs lines 52-58. *)
Definition check_bounds (im : image) (offset : N) : res unit :=
  if im_len im <? offset then Err EInvalidOffset else Ok tt.

(** Image::check_writability: image.rs lines 60-66. *)
Definition im_check_writability (im : image) : res unit :=
  match im_kind im with
  | ReadOnlyMap => Err EReadOnly
  | ReadWriteMap => Ok tt
  | Memory => Ok tt
  end.

(** Image::slice: image.rs lines 68-75. *)
Definition im_slice (im : image) (offset len : N) : res (list nat) :=
  let? _ := check_bounds im (offset + len) in
  Ok (slice (N.to_nat offset) (N.to_nat len) (im_bytes im)).

(** Image::slice_mut: image.rs lines 77-84, together with the caller's update
    [f] of the slice it returns (a function on byte lists preserving length). *)
Definition im_slice_mut (offset len : N) (f : list nat -> list nat) : st image unit :=
  fun im =>
    match check_bounds im (offset + len) with
    | Ok _ =>
        match im_kind im with
        | ReadOnlyMap => (im, Err EReadOnly)
        | _ =>
            (mk_image (im_kind im)
               (splice (N.to_nat offset)
                  (f (slice (N.to_nat offset) (N.to_nat len) (im_bytes im)))
                  (im_bytes im)), Ok tt)
        end
    | Err e => (im, Err e)
    | Panic => (im, Panic)
    | NoFuel => (im, NoFuel)
    end.

(** Image::flush: image.rs lines 86-92; a failing [msync] is not modelled. *)
Definition im_flush (im : image) : res unit :=
  match im_kind im with
  | ReadOnlyMap => Err EReadOnly
  | ReadWriteMap => Ok tt
  | Memory => Ok tt
  end.

(** /repo/src/disk/block.rs lines 77-80 (struct ImageBlockDevice). *)
Record flat_dev := mk_flat_dev { fl_image : image; fl_geometry : geometry }.

(** ImageBlockDevice::get_offset: block.rs lines 87-99. *)
Definition get_offset (g : geometry) (l : location) : res N :=
  if ((fst l <? 1) || (g_tracks g <? fst l))%nat then Err EInvalidLocation
  else if (sectors (g_layouts g !!! fst l) <=? snd l)%nat then Err EInvalidLocation
  else Ok (byte_offset (g_layouts g !!! fst l) + N.of_nat (snd l) * 256).

(** ImageBlockDevice::sector: block.rs lines 113-116. *)
Definition fl_sector (d : flat_dev) (l : location) : res (list nat) :=
  let? offset := get_offset (fl_geometry d) l in
  im_slice (fl_image d) offset 256.

(** ImageBlockDevice::sector_mut: block.rs lines 118-122, with the caller's update. *)
Definition fl_sector_mut (l : location) (f : list nat -> list nat) : st flat_dev unit :=
  fun d =>
    match im_check_writability (fl_image d) with
    | Ok _ =>
        match get_offset (fl_geometry d) l with
        | Ok offset =>
            let '(im, r) := im_slice_mut offset 256 f (fl_image d) in
            (mk_flat_dev im (fl_geometry d), r)
        | Err e => (d, Err e)
        | Panic => (d, Panic)
        | NoFuel => (d, NoFuel)
        end
    | Err e => (d, Err e)
    | Panic => (d, Panic)
    | NoFuel => (d, NoFuel)
    end.

(** ImageBlockDevice::error_table: block.rs lines 124-129. *)
Definition fl_error_table (d : flat_dev) : res (option (list nat)) :=
  match error_table_offset (fl_geometry d) with
  | Some offset =>
      let? t := im_slice (fl_image d) offset (im_len (fl_image d) - offset) in Ok (Some t)
  | None => Ok None
  end.

(** ImageBlockDevice::error_table_mut: block.rs lines 131-140, with the
    caller's update of the table. *)
Definition fl_error_table_mut (f : list nat -> list nat) : st flat_dev (option unit) :=
  fun d =>
    match im_check_writability (fl_image d) with
    | Ok _ =>
        match error_table_offset (fl_geometry d) with
        | Some offset =>
            let '(im, r) :=
              im_slice_mut offset (im_len (fl_image d) - offset) f (fl_image d) in
            (mk_flat_dev im (fl_geometry d),
             match r with Ok _ => Ok (Some tt) | Err e => Err e
                     | Panic => Panic | NoFuel => NoFuel end)
        | None => (d, Ok None)
        end
    | Err e => (d, Err e)
    | Panic => (d, Panic)
    | NoFuel => (d, NoFuel)
    end.

(** ImageBlockDevice::flush: block.rs lines 142-145. *)
Definition fl_flush (d : flat_dev) : res unit :=
  let? _ := im_check_writability (fl_image d) in im_flush (fl_image d).

(** Disk::read_sector: /repo/src/disk/mod.rs lines 479-481 (on the flat device). *)
Definition fl_read_sector (d : flat_dev) (l : location) : res (list nat) := fl_sector d l.

(** Disk::write_sector: /repo/src/disk/mod.rs lines 484-492 (on the flat device). *)
Definition fl_write_sector (l : location) (data : list nat) : st flat_dev unit :=
  fun d =>
    if (length data =? 256)%nat then fl_sector_mut l (fun _ => data) d
    else (d, Err EWriteUnderrun).

(** D64::new / D71::new / D81::new up to the call of [initialize]:
    d64.rs lines 145-159, d71.rs lines 176-190, d81.rs likewise. *)
Definition flat_new (t : disk_type) (im : image) : res flat_dev :=
  match find_by_size (im_len im) (allowed_geometries t) with
  | Some g => Ok (mk_flat_dev im g)
  | None => Err EInvalidLayout
  end.

(** disk::open: /repo/src/disk/mod.rs lines 172-197, after the image bytes have
    been obtained. [ext] is the result of [DiskType::from_extension]; the three
    attempts map the same file, so they see the same bytes. Errors of the
    operating system are not modelled. *)
Definition disk_open (ext : option disk_type) (im : image) : res (disk_type * flat_dev) :=
  match ext with
  | Some t => let? d := flat_new t im in Ok (t, d)
  | None =>
      match flat_new D64 im with
      | Ok d => Ok (D64, d)
      | Err EInvalidLayout =>
          match flat_new D71 im with
          | Ok d => Ok (D71, d)
          | Err EInvalidLayout => let? d := flat_new D81 im in Ok (D81, d)
          | Err e => Err e
          | Panic => Panic
          | NoFuel => NoFuel
          end
      | Err e => Err e
      | Panic => Panic
      | NoFuel => NoFuel
      end
  end.
