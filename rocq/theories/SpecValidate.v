(** What the validation of a disk has to report. *)
From Verif Require Import Base Layout Block Bam Format GeosTypes DirEntry Header World Chain Directory File Spec SpecBam.

(** An opened disk of type [t] with header [h] and allocation map [b]; [g] says
    whether it is a GEOS disk. *)
Record opened (t : disk_type) (w : world) (h : header) (b : bam) (g : bool) : Prop := {
  op_fmt : w_fmt w = Some (set_geos g (native_format t));
  op_header : w_header w = Some h;
  op_bam : exists c, w_bam w = Some c /\ w_cells w !! c = Some b;
  op_bam_fmt : b_format b = set_geos g (native_format t);
  op_entries : length (b_entries b) = spec_tracks t
}.

(** The sectors every disk of the type needs: header, allocation map, first
    directory sector, and the reserved track. *)
Definition system_sector (t : disk_type) (l : location) : Prop :=
  bam_sector t l
  /\ ((fst l = dir_track t /\ snd l <= match t with D81 => 3 | _ => 1 end) \/ reserved t (fst l)).

(** Who claims which sector: (sector, name of the claimant). *)
Definition claim : Type := location * list nat.
Definition claimed (cs : list claim) (l : location) : Prop := exists n, In (l, n) cs.

(** The first claimant of a sector. *)
Definition first_claim (cs : list claim) (l : location) (n : list nat) : Prop :=
  exists pre post, cs = pre ++ (l, n) :: post /\ ~ claimed pre l.

(** "CBM DOS" in the PETSCII mode with lower case, where the capitals are 0x61-0x7a. *)
Definition dos_name : list nat := [99; 98; 109; 32; 100; 111; 115].

(** The sectors of a listed file, as the library itself enumerates them. *)
Definition sectors_of (w : world) (e : dirent) : res (list location) :=
  let? f := open_file_from_entry w e in file_occupied (w_dev w) f.

(** What the listed files claim, in directory order. *)
Definition file_claims (w : world) (es : list dirent) : list claim :=
  concat (map (fun e => match sectors_of w e with
                        | Ok ls => map (fun l => (l, de_name e)) ls
                        | _ => []
                        end) es).

(** What the system claims: the system sectors, the directory chain [dirs] and
    the border sector of a GEOS disk. *)
Definition system_claims (t : disk_type) (dirs : list location) (h : header) (cs : list claim) : Prop :=
  (forall l n, In (l, n) cs <->
     n = dos_name /\ (system_sector t l \/ In l dirs \/ exists gh, h_geos h = Some gh /\ l = gh_border gh)).
