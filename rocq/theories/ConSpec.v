(** Specification for C38: the sky is divided by arcs of constant declination, as
    described above the table in conbound.c (lines 361-366).  The table and the
    names are the data of the model. *)
From Verif Require Import RBase CStr ConModel.
Open Scope list_scope.
Open Scope Z_scope.

(** The parts of an entry: first RA in seconds of time (lower 17 bits), south polar
    distance in arcminutes (the next bits), length of the arc in seconds. *)
Definition arc_ra (e : Z * Z * Z) : Z := fst (fst e) mod 131072.
Definition arc_spd (e : Z * Z * Z) : Z := fst (fst e) / 131072.
Definition arc_len (e : Z * Z * Z) : Z := snd (fst e).
Definition arc_south (e : Z * Z * Z) : Z := snd e.

(** A point with RA and declination in degrees has the arc to the north: the arc's
    declination is larger, and the RA, but for whole turns, is on the arc. *)
Definition below (ra dec : R) (e : Z * Z * Z) : Prop :=
  (dec < IZR (arc_spd e) / 60 - 90)%R /\
  exists k : Z, (IZR (arc_ra e) / 240 <= ra + 360 * IZR k < IZR (arc_ra e + arc_len e) / 240)%R.

(** The constellation of a point: that south of the nearest arc to the north, or Ursa
    Minor if there is none. *)
Definition in_constellation (ra dec : R) (c : Z) : Prop :=
  (exists e, In e bounds /\ below ra dec e /\ arc_south e = c /\
     forall e', In e' bounds -> below ra dec e' -> arc_spd e <= arc_spd e') \/
  ((forall e, In e bounds -> ~ below ra dec e) /\ c = 83).

(** The three letters of constellation [c]. *)
Definition abbreviation (c : Z) : list Z := firstn 3 (skipn (3 * Z.to_nat c) constell_names).
