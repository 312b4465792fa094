(** Specification of variable-star names (C30) and of the MPC's one-letter
    codes for star catalogues (C31). *)
From Coq Require Import String.
From Verif Require Import CBase CStr.
Open Scope list_scope.

(** The names of variable stars in a constellation, in order of discovery: R to
    Z; then RR to RZ, SS to SZ, ... ZZ; then AA to AZ, BB to BZ, ... QQ to QZ, the
    second letter never before the first and the letter J never used. *)
Definition pairs (firsts seconds : list Z) : list (list Z) :=
  flat_map (fun a => map (fun b => [a; b]) (filter (fun b => a <=? b) seconds)) firsts.
Definition lettered_names : list (list Z) :=
  map (fun c => [c]) (zs "RSTUVWXYZ")
  ++ pairs (zs "RSTUVWXYZ") (zs "RSTUVWXYZ")
  ++ pairs (zs "ABCDEFGHIKLMNOPQ") (zs "ABCDEFGHIKLMNOPQRSTUVWXYZ").
(** After these 334, V335 and so on. *)
Definition star_name (n : Z) : list Z :=
  if n <=? 334 then nth (Z.to_nat (n - 1)) lettered_names [] else 86 :: dec n.

(** The MPC's catalogue codes,
    https://www.minorplanetcenter.net/iau/info/CatalogueCodes.html, with the
    spelling the source uses. *)
Definition catalogues : list (Z * list Z) := map (fun '(c, n) => (hd 0 (zs c), zs n))
  [("a", "USNO-A1"); ("b", "USNO-SA1"); ("c", "USNO-A2"); ("d", "USNO-SA2"); ("e", "UCAC-1"); ("f", "Tycho-1");
   ("g", "Tycho-2"); ("h", "GSC-1.0"); ("i", "GSC-1.1"); ("j", "GSC-1.2"); ("k", "GSC-2.2"); ("l", "ACT");
   ("m", "GSC-ACT"); ("n", "SDSS-DR8"); ("o", "USNO-B1"); ("p", "PPM"); ("q", "UCAC-4"); ("r", "UCAC-2");
   ("s", "USNO-B2"); ("t", "PPMXL"); ("u", "UCAC-3"); ("v", "NOMAD"); ("w", "CMC-14"); ("x", "HIP-2");
   ("y", "HIP-1"); ("z", "GSC-?"); ("A", "AC"); ("B", "SAO 1984"); ("C", "SAO"); ("D", "AGK 3"); ("E", "FK4");
   ("F", "ACRS"); ("G", "Lick Gaspra Catalogue"); ("H", "Ida93 Catalogue"); ("I", "Perth 70");
   ("J", "COSMOS/UKST Southern Sky Catalogue"); ("K", "Yale"); ("L", "2MASS"); ("M", "GSC-2.3"); ("N", "SDSS-DR7");
   ("O", "SST-RC1"); ("P", "MPOSC3"); ("Q", "CMC-15"); ("R", "SST-RC4"); ("S", "URAT-1"); ("T", "URAT-2");
   ("U", "Gaia-DR1"); ("V", "Gaia-DR2"); ("W", "Gaia-DR3"); ("X", "Gaia-EDR3"); ("Y", "UCAC-5"); ("Z", "ATLAS-2")]%string.
(** A second spelling of one of them. *)
Definition other_spelling : Z * list Z := (88, zs "Gaia-3E").

(** What is significant of a name: hyphens, blanks, ".0" and "DR" are not, nor is
    the case of letters. *)
Fixpoint significant (s : list Z) : list Z :=
  match s with
  | [] => []
  | c :: r =>
      if (c =? 45) || (c =? 32) then significant r
      else match c, r with
           | 46, 48 :: r' => significant r'
           | 68, 82 :: r' => significant r'
           | _, _ => toupper c :: significant r
           end
  end.
