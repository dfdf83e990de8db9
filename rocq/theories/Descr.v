(** Descr.v -- the named accessors of section 1/451.  Paths relative to /repo/src/ENDFtk. *)
From Verif Require Import Base Disco Records Sections Sec451.
Open Scope Z_scope.

(** section/1/451.hpp:63-68: LRP(), resonanceParameterFlag() *)
Definition LRP (b : descr) : Z := d_lrp b.
(** section/1/451.hpp:73: LFI() *)
Definition LFI (b : descr) : Z := d_lfi b.
(** section/1/451.hpp:78: an int as a bool *)
Definition isFissile (b : descr) : bool := negb (LFI b =? 0).
(** section/1/451.hpp:83-88: NLIB(), libraryType() *)
Definition NLIB (b : descr) : Z := d_nlib b.
(** section/1/451.hpp:93-98: NMOD(), modificationNumber() *)
Definition NMOD (b : descr) : Z := d_nmod b.
(** section/1/451.hpp:103-108: ELIS(), excitationEnergy() *)
Definition ELIS (b : descr) : real := c1 (d_c0 b).
(** section/1/451.hpp:113: STA() *)
Definition STA (b : descr) : real := c2 (d_c0 b).
(** section/1/451.hpp:118: a double as a bool *)
Definition isStable (b : descr) : bool := negb (ris0 (STA b)).
(** section/1/451.hpp:123-128: a long as an int; LIS(), excitedLevel() *)
Definition LIS (b : descr) : Z := i32 (l1 (d_c0 b)).
(** section/1/451.hpp:133-138: LISO(), isomericLevel() *)
Definition LISO (b : descr) : Z := i32 (l2 (d_c0 b)).
(** section/1/451.hpp:143-148: NFOR(), libraryFormat() *)
Definition NFOR (b : descr) : Z := i32 (n2 (d_c0 b)).
(** section/1/451.hpp:153-158: AWI(), projectileAtomicMassRatio() *)
Definition AWI (b : descr) : real := c1 (d_c1 b).
(** section/1/451.hpp:163-168: EMAX(), maximumEnergy() *)
Definition EMAX (b : descr) : real := c2 (d_c1 b).
(** section/1/451.hpp:173-178: LREL(), releaseNumber() *)
Definition LREL (b : descr) : Z := i32 (l1 (d_c1 b)).
(** section/1/451.hpp:183-188: NSUB(), subLibrary() *)
Definition NSUB (b : descr) : Z := i32 (n1 (d_c1 b)).
(** section/1/451.hpp:193-198: NVER(), versionNumber() *)
Definition NVER (b : descr) : Z := i32 (n2 (d_c1 b)).
(** section/1/451.hpp:203-208: TEMP(), temperature() *)
Definition TEMP (b : descr) : real := c1 (d_c2 b).
(** section/1/451.hpp:213-218: RTOL(), reconstructionTolerance() *)
Definition RTOL (b : descr) : real := c2 (d_c2 b).
(** section/1/451.hpp:223-228: LDRV(), derivedMaterial() *)
Definition LDRV (b : descr) : Z := i32 (l1 (d_c2 b)).
(** section/1/451.hpp:243-246: index() *)
Definition index (b : descr) : list dir := d_index b.
