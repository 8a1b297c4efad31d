(** What it means that a run of cdisk copies bytes out to a file of the host, or to
    standard output. *)
From Verif Require Import Base Host Main GeosFile File.
Local Open Scope list_scope.

(** [q] is the destination. *)
Definition copied_out (q : file_path) (bytes : list nat) (h : host) (r : result) : Prop :=
  r_text r = []
  /\ (q = dash -> r_bytes r = bytes /\ r_host r = h)
  /\ (q <> dash -> r_bytes r = [] /\ r_host r q = Some bytes /\ forall x, x <> q -> r_host r x = h x).

(** A file whose data is one chain: a regular file, or a GEOS file without an
    index of records. *)
Definition one_chain (f : file) : Prop :=
  match f with
  | FLinear _ _ => True
  | FGEOSSequential g | FGEOSVLIR g => gf_vlir g = None
  | FRelative _ => False
  end.
