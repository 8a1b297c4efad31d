(** Disk layouts: the static tables of d64.rs, d71.rs and d81.rs, and the
    structures describing them. *)
From Verif Require Import Base.

(** /repo/src/disk/format.rs lines 16-20 (struct Track). Byte offsets are [N]. *)
Record track := mk_track { sectors : nat; sector_offset : nat; byte_offset : N }.

Global Instance track_inhabited : Inhabited track := populate (mk_track 0 0 0%N).

(** /repo/src/disk/header.rs lines 13-30 (struct HeaderFormat). *)
Record header_format := mk_header_format {
  hf_location : location;
  hf_first_directory_offset : nat;
  hf_disk_format_type_offset : nat;
  hf_disk_name_offset : nat;
  hf_disk_id_offset : nat;
  hf_directory_dos_version_offset : nat;
  hf_directory_format_type_offset : nat;
  hf_padding_offsets : list nat;
  hf_default_disk_format_type : nat;
  hf_default_directory_dos_version : nat;
  hf_default_directory_format_type : nat;
  hf_double_sided_flag_expectation : option (nat * nat)
}.

(** /repo/src/disk/bam.rs lines 26-45 (struct BamSection); a BamFormat (lines
    13-16) is a list of sections. *)
Record bam_section := mk_bam_section {
  bs_bitmap_location : location;
  bs_bitmap_offset : nat;
  bs_bitmap_size : nat;
  bs_bitmap_stride : nat;
  bs_free_location : location;
  bs_free_offset : nat;
  bs_free_stride : nat;
  bs_tracks : nat
}.

(** /repo/src/disk/format.rs lines 22-63 (struct DiskFormat). *)
Record disk_format := mk_disk_format {
  directory_track : nat;
  first_directory_sector : nat;
  reserved_track : nat;
  first_track : nat;
  last_track : nat;
  last_nonstandard_track : nat;
  interleave : nat;
  directory_interleave : nat;
  geos : bool;
  tracks : list track;
  header_fmt : header_format;
  bam_sections : list bam_section
}.

(** [format.geos = b] on a copy: /repo/src/disk/mod.rs line 264. *)
Definition set_geos (b : bool) (f : disk_format) : disk_format :=
  mk_disk_format (directory_track f) (first_directory_sector f) (reserved_track f)
    (first_track f) (last_track f) (last_nonstandard_track f) (interleave f)
    (directory_interleave f) b (tracks f) (header_fmt f) (bam_sections f).

(** /repo/src/disk/mod.rs lines 574-578 (struct Geometry). *)
Record geometry := mk_geometry {
  g_layouts : list track;
  g_tracks : nat;
  g_errors : bool
}.

(** The three disk image types: /repo/src/disk/mod.rs lines 136-143 (enum DiskType). *)
Inductive disk_type := D64 | D71 | D81.

(** /repo/src/disk/d64.rs lines 90-132 (static TRACKS). *)
Definition d64_tracks : list track := [
  mk_track 0 0 0%N;
  mk_track 21 0 0%N;
  mk_track 21 21 5376%N;
  mk_track 21 42 10752%N;
  mk_track 21 63 16128%N;
  mk_track 21 84 21504%N;
  mk_track 21 105 26880%N;
  mk_track 21 126 32256%N;
  mk_track 21 147 37632%N;
  mk_track 21 168 43008%N;
  mk_track 21 189 48384%N;
  mk_track 21 210 53760%N;
  mk_track 21 231 59136%N;
  mk_track 21 252 64512%N;
  mk_track 21 273 69888%N;
  mk_track 21 294 75264%N;
  mk_track 21 315 80640%N;
  mk_track 21 336 86016%N;
  mk_track 19 357 91392%N;
  mk_track 19 376 96256%N;
  mk_track 19 395 101120%N;
  mk_track 19 414 105984%N;
  mk_track 19 433 110848%N;
  mk_track 19 452 115712%N;
  mk_track 19 471 120576%N;
  mk_track 18 490 125440%N;
  mk_track 18 508 130048%N;
  mk_track 18 526 134656%N;
  mk_track 18 544 139264%N;
  mk_track 18 562 143872%N;
  mk_track 18 580 148480%N;
  mk_track 17 598 153088%N;
  mk_track 17 615 157440%N;
  mk_track 17 632 161792%N;
  mk_track 17 649 166144%N;
  mk_track 17 666 170496%N;
  mk_track 17 683 174848%N;
  mk_track 17 700 179200%N;
  mk_track 17 717 183552%N;
  mk_track 17 734 187904%N;
  mk_track 17 751 192256%N
].

(** /repo/src/disk/d71.rs lines 92-164 (static TRACKS). *)
Definition d71_tracks : list track := [
  mk_track 0 0 0%N;
  mk_track 21 0 0%N;
  mk_track 21 21 5376%N;
  mk_track 21 42 10752%N;
  mk_track 21 63 16128%N;
  mk_track 21 84 21504%N;
  mk_track 21 105 26880%N;
  mk_track 21 126 32256%N;
  mk_track 21 147 37632%N;
  mk_track 21 168 43008%N;
  mk_track 21 189 48384%N;
  mk_track 21 210 53760%N;
  mk_track 21 231 59136%N;
  mk_track 21 252 64512%N;
  mk_track 21 273 69888%N;
  mk_track 21 294 75264%N;
  mk_track 21 315 80640%N;
  mk_track 21 336 86016%N;
  mk_track 19 357 91392%N;
  mk_track 19 376 96256%N;
  mk_track 19 395 101120%N;
  mk_track 19 414 105984%N;
  mk_track 19 433 110848%N;
  mk_track 19 452 115712%N;
  mk_track 19 471 120576%N;
  mk_track 18 490 125440%N;
  mk_track 18 508 130048%N;
  mk_track 18 526 134656%N;
  mk_track 18 544 139264%N;
  mk_track 18 562 143872%N;
  mk_track 18 580 148480%N;
  mk_track 17 598 153088%N;
  mk_track 17 615 157440%N;
  mk_track 17 632 161792%N;
  mk_track 17 649 166144%N;
  mk_track 17 666 170496%N;
  mk_track 21 683 174848%N;
  mk_track 21 704 180224%N;
  mk_track 21 725 185600%N;
  mk_track 21 746 190976%N;
  mk_track 21 767 196352%N;
  mk_track 21 788 201728%N;
  mk_track 21 809 207104%N;
  mk_track 21 830 212480%N;
  mk_track 21 851 217856%N;
  mk_track 21 872 223232%N;
  mk_track 21 893 228608%N;
  mk_track 21 914 233984%N;
  mk_track 21 935 239360%N;
  mk_track 21 956 244736%N;
  mk_track 21 977 250112%N;
  mk_track 21 998 255488%N;
  mk_track 21 1019 260864%N;
  mk_track 19 1040 266240%N;
  mk_track 19 1059 271104%N;
  mk_track 19 1078 275968%N;
  mk_track 19 1097 280832%N;
  mk_track 19 1116 285696%N;
  mk_track 19 1135 290560%N;
  mk_track 19 1154 295424%N;
  mk_track 18 1173 300288%N;
  mk_track 18 1191 304896%N;
  mk_track 18 1209 309504%N;
  mk_track 18 1227 314112%N;
  mk_track 18 1245 318720%N;
  mk_track 18 1263 323328%N;
  mk_track 17 1281 327936%N;
  mk_track 17 1298 332288%N;
  mk_track 17 1315 336640%N;
  mk_track 17 1332 340992%N;
  mk_track 17 1349 345344%N
].

(** /repo/src/disk/d81.rs lines 87-169 (static TRACKS). *)
Definition d81_tracks : list track := [
  mk_track 0 0 0%N;
  mk_track 40 0 0%N;
  mk_track 40 40 10240%N;
  mk_track 40 80 20480%N;
  mk_track 40 120 30720%N;
  mk_track 40 160 40960%N;
  mk_track 40 200 51200%N;
  mk_track 40 240 61440%N;
  mk_track 40 280 71680%N;
  mk_track 40 320 81920%N;
  mk_track 40 360 92160%N;
  mk_track 40 400 102400%N;
  mk_track 40 440 112640%N;
  mk_track 40 480 122880%N;
  mk_track 40 520 133120%N;
  mk_track 40 560 143360%N;
  mk_track 40 600 153600%N;
  mk_track 40 640 163840%N;
  mk_track 40 680 174080%N;
  mk_track 40 720 184320%N;
  mk_track 40 760 194560%N;
  mk_track 40 800 204800%N;
  mk_track 40 840 215040%N;
  mk_track 40 880 225280%N;
  mk_track 40 920 235520%N;
  mk_track 40 960 245760%N;
  mk_track 40 1000 256000%N;
  mk_track 40 1040 266240%N;
  mk_track 40 1080 276480%N;
  mk_track 40 1120 286720%N;
  mk_track 40 1160 296960%N;
  mk_track 40 1200 307200%N;
  mk_track 40 1240 317440%N;
  mk_track 40 1280 327680%N;
  mk_track 40 1320 337920%N;
  mk_track 40 1360 348160%N;
  mk_track 40 1400 358400%N;
  mk_track 40 1440 368640%N;
  mk_track 40 1480 378880%N;
  mk_track 40 1520 389120%N;
  mk_track 40 1560 399360%N;
  mk_track 40 1600 409600%N;
  mk_track 40 1640 419840%N;
  mk_track 40 1680 430080%N;
  mk_track 40 1720 440320%N;
  mk_track 40 1760 450560%N;
  mk_track 40 1800 460800%N;
  mk_track 40 1840 471040%N;
  mk_track 40 1880 481280%N;
  mk_track 40 1920 491520%N;
  mk_track 40 1960 501760%N;
  mk_track 40 2000 512000%N;
  mk_track 40 2040 522240%N;
  mk_track 40 2080 532480%N;
  mk_track 40 2120 542720%N;
  mk_track 40 2160 552960%N;
  mk_track 40 2200 563200%N;
  mk_track 40 2240 573440%N;
  mk_track 40 2280 583680%N;
  mk_track 40 2320 593920%N;
  mk_track 40 2360 604160%N;
  mk_track 40 2400 614400%N;
  mk_track 40 2440 624640%N;
  mk_track 40 2480 634880%N;
  mk_track 40 2520 645120%N;
  mk_track 40 2560 655360%N;
  mk_track 40 2600 665600%N;
  mk_track 40 2640 675840%N;
  mk_track 40 2680 686080%N;
  mk_track 40 2720 696320%N;
  mk_track 40 2760 706560%N;
  mk_track 40 2800 716800%N;
  mk_track 40 2840 727040%N;
  mk_track 40 2880 737280%N;
  mk_track 40 2920 747520%N;
  mk_track 40 2960 757760%N;
  mk_track 40 3000 768000%N;
  mk_track 40 3040 778240%N;
  mk_track 40 3080 788480%N;
  mk_track 40 3120 798720%N;
  mk_track 40 3160 808960%N
].

(** /repo/src/disk/d64.rs lines 13-26 (static HEADER_FORMAT). *)
Definition d64_header : header_format :=
  mk_header_format (18, 0) 0 2 144 162 165 166 [160; 161; 164; 167; 168; 169; 170] 65 50 65 None.

(** /repo/src/disk/d71.rs lines 17-33 (static HEADER_FORMAT). *)
Definition d71_header : header_format :=
  mk_header_format (18, 0) 0 2 144 162 165 166 [160; 161; 164; 167; 168; 169; 170] 65 50 65 (Some (3, 128)).

(** /repo/src/disk/d81.rs lines 15-28 (static HEADER_FORMAT). *)
Definition d81_header : header_format :=
  mk_header_format (40, 0) 0 2 4 22 25 26 [20; 21; 24; 27; 28] 68 51 68 None.

(** /repo/src/disk/d64.rs lines 29-40 (static BAM_FORMAT). *)
Definition d64_bam : list bam_section :=
  [mk_bam_section (18, 0) 5 3 4 (18, 0) 4 4 35].

(** /repo/src/disk/d71.rs lines 36-59 (static BAM_FORMAT). *)
Definition d71_bam : list bam_section :=
  [mk_bam_section (18, 0) 5 3 4 (18, 0) 4 4 35;
   mk_bam_section (53, 0) 0 3 3 (18, 0) 221 1 35].

(** /repo/src/disk/d81.rs lines 31-54 (static BAM_FORMAT). *)
Definition d81_bam : list bam_section :=
  [mk_bam_section (40, 1) 17 5 6 (40, 1) 16 6 40;
   mk_bam_section (40, 2) 17 5 6 (40, 2) 16 6 40].

(** /repo/src/disk/d64.rs lines 43-56 (static DISK_FORMAT). *)
Definition d64_format : disk_format :=
  mk_disk_format 18 1 0 1 35 40 10 3 false d64_tracks d64_header d64_bam.

(** /repo/src/disk/d71.rs lines 62-75 (static DISK_FORMAT). *)
Definition d71_format : disk_format :=
  mk_disk_format 18 1 53 1 70 70 6 3 false d71_tracks d71_header d71_bam.

(** /repo/src/disk/d81.rs lines 57-70 (static DISK_FORMAT). *)
Definition d81_format : disk_format :=
  mk_disk_format 40 3 0 1 80 80 1 1 false d81_tracks d81_header d81_bam.

(** [native_disk_format()]: d64.rs line 214, d71.rs and d81.rs likewise. *)
Definition native_format (t : disk_type) : disk_format :=
  match t with D64 => d64_format | D71 => d71_format | D81 => d81_format end.

(** [ALLOWED_GEOMETRIES]: d64.rs lines 58-87, d71.rs lines 77-89, d81.rs lines 72-84. *)
Definition allowed_geometries (t : disk_type) : list geometry :=
  match t with
  | D64 => [mk_geometry d64_tracks 35 false; mk_geometry d64_tracks 35 true;
            mk_geometry d64_tracks 40 false; mk_geometry d64_tracks 40 true]
  | D71 => [mk_geometry d71_tracks 70 false; mk_geometry d71_tracks 70 true]
  | D81 => [mk_geometry d81_tracks 80 false; mk_geometry d81_tracks 80 true]
  end.

(** Geometry::size_without_error_table: /repo/src/disk/mod.rs lines 597-601. *)
Definition size_without_error_table (g : geometry) : N :=
  let t := g_layouts g !!! g_tracks g in
  (byte_offset t + N.of_nat (sectors t) * 256)%N.

(** Geometry::error_table_size: /repo/src/disk/mod.rs lines 605-612. *)
Definition error_table_size (g : geometry) : N :=
  N.of_nat (sum (map sectors (take (g_tracks g + 1) (g_layouts g)))).

(** Geometry::size: /repo/src/disk/mod.rs lines 616-622. *)
Definition geometry_size (g : geometry) : N :=
  if g_errors g then (size_without_error_table g + error_table_size g)%N
  else size_without_error_table g.

(** Geometry::error_table_offset: /repo/src/disk/mod.rs lines 626-632. *)
Definition error_table_offset (g : geometry) : option N :=
  if g_errors g then Some (size_without_error_table g) else None.

(** Geometry::find_by_size: /repo/src/disk/mod.rs lines 582-592. *)
Fixpoint find_by_size (size : N) (gs : list geometry) : option geometry :=
  match gs with
  | [] => None
  | g :: gs => if (geometry_size g =? size)%N then Some g else find_by_size size gs
  end.

(** ** DiskFormat accessors: /repo/src/disk/format.rs *)

(** sectors_in_track: lines 67-69. *)
Definition sectors_in_track (f : disk_format) (t : nat) : nat :=
  sectors (tracks f !!! t).

(** is_reserved_track: lines 72-74. *)
Definition is_reserved_track (f : disk_format) (t : nat) : bool :=
  (t =? directory_track f) || (t =? reserved_track f).

(** first_directory_location: lines 77-79. *)
Definition first_directory_location (f : disk_format) : location :=
  (directory_track f, first_directory_sector f).

(** Rust's derived order on Location (block.rs line 149): lexicographic. *)
Definition loc_le (a b : location) : bool :=
  (fst a <? fst b) || ((fst a =? fst b) && (snd a <=? snd b)).

(** [Vec::sort]: insertion sort stands for the library's sort (same result,
    since the order is total). *)
Fixpoint loc_insert (x : location) (l : list location) : list location :=
  match l with
  | [] => [x]
  | y :: l' => if loc_le x y then x :: l else y :: loc_insert x l'
  end.
Definition loc_sort (l : list location) : list location := fold_right loc_insert [] l.

(** [Vec::dedup]: removes consecutive repeated elements. *)
Fixpoint loc_dedup (l : list location) : list location :=
  match l with
  | [] => []
  | x :: l' =>
      match l' with
      | [] => [x]
      | y :: _ => if decide (x = y) then loc_dedup l' else x :: loc_dedup l'
      end
  end.

(** system_locations: lines 88-112. *)
Definition system_locations (f : disk_format) : list location :=
  loc_dedup (loc_sort
    ([hf_location (header_fmt f)]
     ++ map bs_bitmap_location (bam_sections f)
     ++ [first_directory_location f]
     ++ (if reserved_track f =? 0 then []
         else map (fun s => (reserved_track f, s))
                  (seq 0 (sectors (tracks f !!! reserved_track f)))))).

(** max_directory_entries: lines 116-132 (ENTRY_SIZE is 32, directory.rs line 170). *)
Definition max_directory_entries (f : disk_format) : nat :=
  let total_sectors := sectors (tracks f !!! directory_track f) in
  let used_sectors :=
    length (List.filter (fun l => fst l =? directory_track f) (system_locations f)) - 1 in
  (total_sectors - used_sectors) * BLOCK_SIZE / 32.

(** total_data_blocks: lines 137-149. *)
Definition total_data_blocks (f : disk_format) : nat :=
  sum (map (fun it => sectors (snd it))
    (List.filter
      (fun it => (first_track f <=? fst it) && (fst it <=? last_track f)
                 && negb (fst it =? directory_track f)
                 && negb (fst it =? reserved_track f))
      (combine (seq 0 (length (tracks f))) (tracks f)))).
