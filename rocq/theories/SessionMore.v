(** All calls of the Disk trait that can change something, in addition to those
    of Session.v. Each case calls one modelled function of the library. *)
From Verif Require Import Base Layout Block Bam Format Petscii GeosTypes DirEntry Header World Chain Directory Writer Rel GeosFile
  File Validate SpecChain Session.

Inductive any_op :=
| XCall (o : op)                                   (* the calls of Session.v *)
| XWriteSector (l : location) (data : list nat)    (* Disk::write_sector *)
| XSetHeader (h : option header)                   (* Disk::set_header *)
| XHeaderMut (f : header -> header)                (* Disk::header_mut and a change of the header *)
| XFlushHeader                                     (* Disk::flush_header *)
| XSetFormat (f : option disk_format)              (* Disk::set_disk_format *)
| XSetBam (b : option bam)                         (* Disk::set_bam *)
| XBamMut (f : bam -> res bam)                     (* Disk::bam, then changing the map *)
| XBamFlush                                        (* Disk::bam, then Bam::flush *)
| XWriteEntry (e : dirent)                         (* Disk::write_directory_entry *)
| XNextEntry                                       (* Disk::next_free_directory_entry *)
| XOpenEntry (e : dirent)                          (* Disk::open_file_from_entry *)
| XSectorMut (l : location) (f : list nat -> list nat). (* Disk::blocks, then BlockDevice::sector_mut *)

Definition run {A} (m : st world A) (s : session) : session := set_world (fst (m (s_world s))) s.

Definition any_call (s : session) (o : any_op) : session :=
  match o with
  | XCall o => fst (call s o)
  | XWriteSector l data => run (w_write_sector l data) s
  | XSetHeader h => set_world (set_header h (s_world s)) s
  | XHeaderMut f => run (w_header_mut f) s
  | XFlushHeader => run flush_header s
  | XSetFormat f => set_world (set_fmt f (s_world s)) s
  | XSetBam b => set_world (set_bam b (s_world s)) s
  | XBamMut f => run (do! c := asks w_get_bam in update_cell c f) s
  | XBamFlush => run (do! c := asks w_get_bam in flush_cell c) s
  | XWriteEntry e => run (write_directory_entry e) s
  | XNextEntry => run next_free_directory_entry s
  | XOpenEntry e =>
      match open_file_from_entry (s_world s) e with
      | Ok x => mk_session (s_world s) (s_handles s ++ [x]) (s_writers s)
      | _ => s
      end
  | XSectorMut l f => run (on_dev (sector_mut l f)) s
  end.

Definition any_calls (s : session) (os : list any_op) : session := fold_left any_call os s.
