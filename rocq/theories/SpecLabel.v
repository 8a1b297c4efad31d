(** Specification of a change of the disk header. *)
From Verif Require Import Base Layout Header SpecDisk.

(** A header as it is stored: the name takes up 16 bytes. *)
Definition padded (h : header) : header :=
  mk_header (h_first_directory h) (h_disk_format_type h) (h_disk_name h ++ repeat 160 (16 - length (h_disk_name h)))
    (h_disk_id h) (h_directory_dos_version h) (h_directory_format_type h) (h_geos h).

(** The same table of files, with another label. *)
Definition relabelled (name : list nat) (a : astate) : astate :=
  mk_astate name (as_dirs a) (as_border a) (as_slots a) (as_handles a) (as_writers a) (as_synced a).
