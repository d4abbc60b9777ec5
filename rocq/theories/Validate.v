(** The repository's own unit tests, evaluated in the model: a check of the model, not a property of the code.
    Each example cites the test. *)
From Coq Require Import String.
From Verif Require Import M_Base M_IO M_Signature M_SigTables M_Header M_Context M_FileFile M_Profile S_Profile P_FileFile P_Open.
From Verif Require Props_Profile.

(** The default build (no [use_little_endian]) on any host. *)
Definition any_host (hb ov i64 em pe : bool) : env := mkEnv hb false ov i64 em pe.

(** /repo/src/types/signature.rs:109-251. *)
Example signature_gray : sig_new (text "GRAY") = be_val [71; 82; 65; 89].
Proof. reflexivity. Qed.
Example signature_from_str : exists s, sig_of_str (text "GRAY") = Ok s /\ In ("GRAY"%string, s) tbl_color_space.
Proof. eexists. split; [vm_compute; reflexivity|]. vm_compute. tauto. Qed.
Example signature_default : sig_default = sig_new (text "    ").
Proof. reflexivity. Qed.
Example signature_from_arrays :
  sig_of_array4 (text "GRAY") = sig_new (text "GRAY") /\ sig_of_array_short 3 (text "RGB") = Ok (sig_new (text "RGB ")) /\
  sig_of_array_short 2 (text "xy") = Ok (sig_new (text "xy  ")) /\ sig_of_array_short 1 (text "a") = Ok (sig_new (text "a   ")).
Proof. repeat split. Qed.
Example signature_from_slices :
  sig_of_slice (text "abcdefg") = Ok (sig_new (text "abcd")) /\ sig_of_slice (text "GRAY") = Ok (sig_new (text "GRAY")) /\
  sig_of_slice (text "RGB") = Ok (sig_new (text "RGB ")) /\ sig_of_slice (text "xy") = Ok (sig_new (text "xy  ")) /\
  sig_of_slice (text "a") = Ok (sig_new (text "a   ")) /\ sig_of_slice [] = Ok sig_default.
Proof. repeat split. Qed.
Example signature_conversions :
  sig_of_u32 (be_val (text "GRAY")) = sig_new (text "GRAY") /\ sig_to_u32 (sig_new (text "GRAY")) = be_val (text "GRAY") /\
  sig_to_bytes (sig_new (text "GRAY")) = text "GRAY" /\ sig_to_string (sig_new (text "GRAY")) = text "GRAY" /\
  sig_to_string (sig_new [0; 159; 146; 150]) = sig_to_string sig_default.
Proof. repeat split. Qed.

(** /repo/src/io/file_file.rs:37-52: writes of 8, 4, 2 and 1 bytes, and where [tell] is. *)
Definition writes (s : File) (l : list (list Z)) : list (res unit * Z) :=
  snd (fold_left (fun '(s, r) b => let '(x, s') := file_write s b in (s', r ++ [(x, f_pos s')])) l (s, [])).
Example file_tell_location :
  writes (mkFile [] 0 false true []) [repeat 0 8; repeat 0 4; repeat 0 2; [0]] = [(Ok tt, 8); (Ok tt, 12); (Ok tt, 14); (Ok tt, 15)].
Proof. reflexivity. Qed.
(** file_file.rs:53-94: what is written is on disk, and is read back. *)
Example file_write_read : forall b, In b [be_bytes 8 42; be_bytes 4 69; be_bytes 2 123; [7]] ->
  (let '(r, s) := file_write (mkFile [] 0 false true []) b in r = Ok tt /\ f_data s = b) /\
  (let '(r, _, buf) := file_read (mkFile b 0 true false []) (repeat 0 (List.length b)) in r = Ok tt /\ buf = b).
Proof. intros b H. repeat (destruct H as [<-|H]; [vm_compute; repeat split|]). destruct H. Qed.
(** file_file.rs:95-143: the bytes met by the seeks of the test. *)
Fixpoint peeks (s : File) (l : list seek_from) : list (list Z) :=
  match l with
  | [] => []
  | p :: l' => let '(_, s1) := file_seek s p in let '(_, s2, b) := file_read s1 [0] in b :: peeks s2 l'
  end.
Example file_seeks :
  peeks (mkFile [42; 69; 123; 7; 255] 0 true false [])
    [SeekEnd (-1); SeekStart 0; SeekCurrent 2; SeekStart 2; SeekCurrent (-2); SeekStart 4; SeekEnd (-5)] =
  [[255]; [42]; [7]; [123]; [69]; [255]; [42]].
Proof. reflexivity. Qed.

(** /repo/resources/test/sRGB_v4_ICC_preference.icc: the first 240 of its 60960 bytes. *)
Definition srgb_head : list Z :=
  [0; 0; 238; 32; 0; 0; 0; 0; 4; 32; 0; 0;
   115; 112; 97; 99; 82; 71; 66; 32; 76; 97; 98; 32;
   7; 215; 0; 7; 0; 25; 0; 0; 0; 5; 0; 37;
   97; 99; 115; 112; 0; 0; 0; 0; 0; 0; 0; 0;
   0; 0; 0; 0; 0; 0; 0; 0; 0; 0; 0; 0;
   0; 0; 0; 0; 0; 0; 0; 0; 0; 0; 246; 214;
   0; 1; 0; 0; 0; 0; 211; 45; 0; 0; 0; 0;
   52; 86; 42; 191; 153; 76; 205; 6; 109; 44; 87; 33;
   208; 214; 140; 93; 0; 0; 0; 0; 0; 0; 0; 0;
   0; 0; 0; 0; 0; 0; 0; 0; 0; 0; 0; 0;
   0; 0; 0; 0; 0; 0; 0; 0; 0; 0; 0; 9;
   100; 101; 115; 99; 0; 0; 0; 240; 0; 0; 0; 118;
   65; 50; 66; 48; 0; 0; 1; 104; 0; 0; 116; 16;
   65; 50; 66; 49; 0; 0; 117; 120; 0; 0; 1; 180;
   66; 50; 65; 48; 0; 0; 119; 44; 0; 0; 116; 52;
   66; 50; 65; 49; 0; 0; 235; 96; 0; 0; 1; 252;
   114; 105; 103; 48; 0; 0; 237; 92; 0; 0; 0; 12;
   119; 116; 112; 116; 0; 0; 237; 104; 0; 0; 0; 20;
   99; 112; 114; 116; 0; 0; 237; 124; 0; 0; 0; 118;
   99; 104; 97; 100; 0; 0; 237; 244; 0; 0; 0; 44].
(** The file: what follows the directory is data no open looks at. *)
Definition srgb_file (rest : list Z) : list Z := srgb_head ++ rest.
(** /repo/src/types/profile.rs:282-325: the expected profile. *)
Definition front {A} (l : list A) (d : A) : list A := l ++ repeat d (MAX_TABLE_TAG - List.length l).
Definition srgb_expected : Profile File :=
  mkProfile None (mkND 2007 7 25 0 5 37 0) 69206016 (* 0x04200000 *) (sig_new (text "spac")) (sig_new (text "RGB ")) (sig_new (text "Lab "))
    0 0 0 0 0 0 [52; 86; 42; 191; 153; 76; 205; 6; 109; 44; 87; 33; 208; 214; 140; 93] 9
    (front (map (fun s => sig_new (text s)) ["desc"; "A2B0"; "A2B1"; "B2A0"; "B2A1"; "rig0"; "wtpt"; "cprt"; "chad"]%string) sig_default)
    (repeat None MAX_TABLE_TAG) (front [118; 29712; 436; 29748; 508; 12; 20; 118; 44] 0)
    (front [240; 360; 30072; 30508; 60256; 60764; 60776; 60796; 60916] 0) (repeat false MAX_TABLE_TAG) false.
Definition equals_expected (r : res (Profile File)) : bool :=
  match r with Ok p => profile_eqb p srgb_expected | _ => false end.
(** profile.rs:267-334: on every host, for every way the operating system splits the reads, whatever the data after the directory. *)
Lemma srgb_zeros hb ov i64 em pe w now : equals_expected (or_res (open_from_file_thr (any_host hb ov i64 em pe) w now [] (context_new None)
  (Props_Profile.disk (srgb_file (repeat 0 (Z.to_nat 60720)))) 7%nat ModeRead)) = true.
Proof. destruct hb, ov, i64, em, pe; vm_compute; reflexivity. Qed.
Example file_loads_with_proper_data : forall hb ov i64 em pe w now sched rest fs q,
  openable fs q (srgb_file rest) -> Z.of_nat (List.length rest) = 60720 -> no_fail sched ->
  equals_expected (or_res (open_from_file_thr (any_host hb ov i64 em pe) w now sched (context_new None) fs q ModeRead)) = true.
Proof.
  intros hb ov i64 em pe w now sched rest fs q OP L NF.
  set (d := srgb_file (repeat 0 (Z.to_nat 60720))).
  assert (O0 : openable (Props_Profile.disk d) 7%nat d) by (apply Props_Profile.disk_openable; vm_compute; reflexivity).
  assert (DE : directory_end (feat_le (any_host hb ov i64 em pe)) (srgb_file rest) = List.length srgb_head) by reflexivity.
  pose proof (Props_Profile.C36_depends_on_directory_and_length (any_host hb ov i64 em pe) w now now sched [] (context_new None) fs
    (Props_Profile.disk d) q 7%nat (srgb_file rest) d OP O0 NF (Forall_nil _)) as S.
  rewrite DE in S. unfold d, srgb_file in S. rewrite !firstn_app, Nat.sub_diag, !firstn_O, !app_nil_r, !app_length, repeat_length in S.
  specialize (S ltac:(lia) eq_refl). pose proof (srgb_zeros hb ov i64 em pe w now) as Z0. unfold srgb_file in Z0.
  destruct S as (_ & _ & S). destruct (or_res (open_from_file_thr _ _ _ sched _ _ _ _)) as [p| |]; destruct (or_res _) as [p'| |]; try contradiction; try discriminate Z0.
  cbn [equals_expected] in *. destruct p, p'. injection S. intros. subst. exact Z0.
Qed.
