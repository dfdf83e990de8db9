(** TypedSpec.v -- what the theorems about typed files, materials and tapes are
    about: good objects, i.e. those whose numbers fit their columns. *)
From Verif Require Import Base Disco Records RealRound RealProofs Spec Sections SecSpec Tree Typed.
Open Scope Z_scope.

Section Classes.
  Variable code : Type.
  Variable body : code -> Type.
  Variable kind : forall c, skind (body c).
  Variable class_of : Z -> Z -> option code.
  (** representable and consistent contents of a section, for each class *)
  Variable rep inv : forall c, body c -> Prop.

  (** what is required of the table of classes: every class reads what it prints,
      readSection selects the class by MF and MT, and file 8 has no other sections
      than 454, 457 and 459 *)
  Record table_ok : Prop := mktable
    { tk_core : forall c, section_core (kind c) (rep c) (inv c);
      tk_mf : forall c, 0 < k_mf (kind c) < 100 /\ known_mf (k_mf (kind c)) = true /\ k_mf (kind c) <> 30;
      tk_fix : forall c n, k_fix (kind c) = Some n -> 0 < n < 1000;
      tk_class : forall c n, k_fix (kind c) = Some n -> class_of (k_mf (kind c)) n = Some c;
      tk_own : forall c n mt, k_fix (kind c) = Some n -> class_of (k_mf (kind c)) mt = Some c -> mt = n;
      tk_any : forall c mt, k_fix (kind c) = None -> class_of (k_mf (kind c)) mt = Some c;
      tk_fun : forall mf mt c, class_of mf mt = Some c -> k_mf (kind c) = mf;
      tk_8 : forall c, k_mf (kind c) = 8 ->
               k_fix (kind c) = Some 454 \/ k_fix (kind c) = Some 457 \/ k_fix (kind c) = Some 459 }.

  Definition good_ysec (x : ysec code body) : Prop :=
    let c := projT1 x in
    good_ids (projT2 x) /\ good_number (kind c) (projT2 x)
    /\ rep c (s_body (projT2 x)) /\ inv c (s_body (projT2 x)).
  (** sections in ascending order, each under its number and of the class of the file *)
  Definition good_yfile (f : yfile code body) : Prop :=
    yf_secs f <> [] /\ ascending Z.lt (map fst (yf_secs f))
    /\ Forall (fun p => fst p = y_mt (snd p) /\ k_mf (kind (projT1 (snd p))) = yf_mf f /\ good_ysec (snd p)) (yf_secs f).
  Definition good_ymat (m : ymat code body) : Prop :=
    0 < ym_mat m < 10000 /\ ym_files m <> [] /\ ascending Z.lt (map fst (ym_files m))
    /\ Forall (fun p => fst p = yf_mf (snd p) /\ good_yfile (snd p)) (ym_files m).
  (** the identification has 66 columns and the tape number 0 *)
  Definition good_ytape (t : ytape code body) : Prop :=
    length (tptext (yt_id t)) = 66%nat /\ noLF (tptext (yt_id t)) /\ tpnum (yt_id t) = 0
    /\ yt_mats t <> [] /\ len (yt_mats t) < 2 ^ 31 /\ Forall good_ymat (yt_mats t).

  (** what every reader and constructor guarantees *)
  Definition inv_yfile (f : yfile code body) : Prop :=
    ascending Z.lt (map fst (yf_secs f))
    /\ Forall (fun p => fst p = y_mt (snd p) /\ k_mf (kind (projT1 (snd p))) = yf_mf f
                        /\ 1 <= s_za (projT2 (snd p)) /\ real_le rzero (s_awr (projT2 (snd p)))
                        /\ inv (projT1 (snd p)) (s_body (projT2 (snd p)))) (yf_secs f).
  Definition inv_ymat (m : ymat code body) : Prop :=
    ascending Z.lt (map fst (ym_files m))
    /\ Forall (fun p => fst p = yf_mf (snd p) /\ known_mf (yf_mf (snd p)) = true /\ inv_yfile (snd p)) (ym_files m).
End Classes.
