(** What lasinfo's inspection of the points and --point say: the layout of the text
    and the numbers in it.  Values of records: Txt_Spec ([whole_letter],
    [real_letter]: x, y, z coordinates, t time, i intensity, n returns, r return
    number, p source id, e edge, d direction, a angle, c class, u user data, R G B
    colour). *)
From Coq Require Import ZArith List Bool String Ascii Reals.
Import ListNotations.
From Flocq Require Import Core BinarySingleNaN Binary Bits.
From Verif Require Import Outcome Bytes Float64 Float64_Proofs Point_Spec Point_Model IO_Spec Coord_Api Cols_Spec Summary_Spec Txt_Spec.
Local Open Scope string_scope.
Local Open Scope list_scope.
Local Open Scope Z_scope.

Definition whole_of (F : list Z) (c : ascii) (rec : list Z) : Z := match whole_letter F 0 rec c with Some n => n | None => 0 end.
Definition real_of (F : list Z) (c : ascii) (rec : list Z) : f64 := match real_letter F rec c with Some x => x | None => f64_zero end.
(** the flags of the classification byte (LAS 1.2, table 4.10) *)
Definition class_flag (F : list Z) (bit : Z) (rec : list Z) : bool := Z.testbit (field (fmt F) AClassification rec) bit.

(** a printed number with [p] digits behind the point is the double [x], but for the
    digits that are not printed and the 16 digits kept *)
Definition shows_real (p : nat) (x : f64) (t : list ascii) : Prop :=
  exists m, number t = Some (m, p) /\
    (Rabs (IZR m / 10 ^ p - f64_R x) <= / 2 / 10 ^ p + / 1000000000000000 * Rabs (f64_R x) + bpow radix2 (-1075))%R.

(** How often the numbers [ids] occur, those that do not occur left out *)
Definition tallied (ids : list Z) (vs : list Z) : list (Z * Z) :=
  filter (fun e => negb (snd e =? 0)) (map (fun i => (i, number_of (Z.eqb i) vs)) ids).
Definition upto (a b : nat) : list Z := map Z.of_nat (seq a (b - a)).

(** ** Layout *)
Definition lit : string -> list ascii := list_ascii_of_string.
Definition tab1 : list ascii := [ascii_of_nat 9].
Definition rule : list ascii := lit "---------------------------------------------------------".
Definition rule2 : list ascii := lit "  -------------------------------------------------------".
Definition ends (lines : list (list ascii)) : list ascii := flat_map (fun l => l ++ [ascii_of_nat 10]) lines.

Record figures := mkFig {
  g_header : Z; g_count : Z; g_lo : ascii -> Z; g_hi : ascii -> Z; g_rlo : ascii -> list ascii; g_rhi : ascii -> list ascii;
  g_returns : list (Z * Z); g_pulses : list (Z * Z); g_classes : list (Z * Z); g_withheld : Z; g_keypoint : Z; g_synthetic : Z }.
(** [dec]: how whole numbers are written *)
Definition summary_layout (dec : Z -> list ascii) (g : figures) : list (list ascii) :=
  let pair c := dec (g_lo g c) ++ lit ", " ++ dec (g_hi g c) in
  let xyz f := f "x"%char ++ lit ", " ++ f "y"%char ++ lit ", " ++ f "z"%char in
  let rgb f := dec (f "R"%char) ++ lit " " ++ dec (f "G"%char) ++ lit " " ++ dec (f "B"%char) ++ lit " " in
  let counts l := flat_map (fun e : Z * Z => tab1 ++ lit "(" ++ dec (fst e) ++ lit ") " ++ dec (snd e)) l in
  [ rule; lit "  Point Inspection Summary"; rule;
    lit "  Header Point Count: " ++ dec (g_header g); lit "  Actual Point Count: " ++ dec (g_count g); [];
    lit "  Minimum and Maximum Attributes (min,max)"; rule;
    lit "  Min X, Y, Z: " ++ tab1 ++ tab1 ++ xyz (g_rlo g); lit "  Max X, Y, Z: " ++ tab1 ++ tab1 ++ xyz (g_rhi g);
    lit "  Bounding Box:" ++ tab1 ++ tab1 ++ g_rlo g "x"%char ++ lit ", " ++ g_rlo g "y"%char ++ lit ", " ++ g_rhi g "x"%char ++ lit ", " ++ g_rhi g "y"%char;
    lit "  Time:" ++ tab1 ++ tab1 ++ tab1 ++ g_rlo g "t"%char ++ lit ", " ++ g_rhi g "t"%char;
    lit "  Return Number:" ++ tab1 ++ pair "r"%char; lit "  Return Count:" ++ tab1 ++ tab1 ++ pair "n"%char;
    lit "  Flightline Edge:" ++ tab1 ++ pair "e"%char; lit "  Intensity:" ++ tab1 ++ tab1 ++ pair "i"%char;
    lit "  Scan Direction Flag:" ++ tab1 ++ pair "d"%char; lit "  Scan Angle Rank:" ++ tab1 ++ pair "a"%char;
    lit "  Classification:" ++ tab1 ++ pair "c"%char; lit "  Point Source Id:" ++ tab1 ++ pair "p"%char; lit "  User Data:" ++ tab1 ++ tab1 ++ pair "u"%char;
    lit "  Minimum Color (RGB):" ++ tab1 ++ rgb (g_lo g); lit "  Maximum Color (RGB):" ++ tab1 ++ rgb (g_hi g); [];
    lit "  Number of Points by Return"; rule; counts (g_returns g); [];
    lit "  Number of Returns by Pulse"; rule; counts (g_pulses g); [];
    lit "  Point Classifications"; rule ]
  ++ map (fun e : Z * Z => tab1 ++ dec (snd e) ++ lit " " ++ lit (class_name (fst e)) ++ lit " (" ++ dec (fst e) ++ lit ") ") (g_classes g)
  ++ [ rule2; lit "  " ++ tab1 ++ dec (g_withheld g) ++ lit " withheld"; lit "  " ++ tab1 ++ dec (g_keypoint g) ++ lit " keypoint";
       lit "  " ++ tab1 ++ dec (g_synthetic g) ++ lit " synthetic"; rule2; [] ].

(** ** The figures for the records [ds] of the file [F]; [pr]: digits behind the
    point for the coordinates *)
Definition whole_letters : list ascii := lit "rneidacpuRGB".
Definition places (pr : axis -> nat) (c : ascii) : nat := match c with "x" => pr AxX | "y" => pr AxY | "z" => pr AxZ | _ => 6%nat end%char.
Definition figures_of (F : list Z) (ds : list (list Z)) (pr : axis -> nat) (g : figures) : Prop :=
  g_header g = u_at F 107 4 /\ g_count g = Z.of_nat (List.length ds) /\
  (forall c, In c whole_letters -> least (map (whole_of F c) ds) (g_lo g c) /\ greatest (map (whole_of F c) ds) (g_hi g c)) /\
  (forall c, In c (lit "xyzt") -> exists lo hi, least_f (map (real_of F c) ds) lo /\ greatest_f (map (real_of F c) ds) hi /\
     shows_real (places pr c) lo (g_rlo g c) /\ shows_real (places pr c) hi (g_rhi g c)) /\
  g_returns g = (if forallb (fun d => whole_of F "r"%char d =? 0) ds then [(1, Z.of_nat (List.length ds))] else tallied (upto 1 8) (map (whole_of F "r"%char) ds)) /\
  g_pulses g = tallied (upto 0 8) (map (whole_of F "n"%char) ds) /\
  g_classes g = tallied (upto 0 32) (map (whole_of F "c"%char) ds) /\
  g_withheld g = number_of (class_flag F 7) ds /\ g_keypoint g = number_of (class_flag F 6) ds /\ g_synthetic g = number_of (class_flag F 5) ds.

(** ** --point *)
Definition truth (b : bool) : list ascii := lit (if b then "true" else "false").
Definition point_layout (dec : Z -> list ascii) (F : list Z) (rec : list Z) (real : ascii -> list ascii) : list (list ascii) :=
  let n c := dec (whole_of F c rec) in
  [ rule;
    lit "  X: " ++ tab1 ++ tab1 ++ tab1 ++ real "x"%char; lit "  Y: " ++ tab1 ++ tab1 ++ tab1 ++ real "y"%char; lit "  Z: " ++ tab1 ++ tab1 ++ tab1 ++ real "z"%char;
    lit "  Time: " ++ tab1 ++ tab1 ++ real "t"%char;
    lit "  Return Number: " ++ tab1 ++ n "r"%char; lit "  Return Count: " ++ tab1 ++ n "n"%char; lit "  Flightline Edge: " ++ tab1 ++ n "e"%char;
    lit "  Intensity: " ++ tab1 ++ tab1 ++ n "i"%char; lit "  Scan Direction: " ++ tab1 ++ n "d"%char; lit "  Scan Angle Rank: " ++ tab1 ++ n "a"%char;
    lit "  Classification: " ++ tab1 ++ lit (class_name (whole_of F "c"%char rec));
    lit "         witheld: " ++ tab1 ++ truth (class_flag F 7 rec); lit "        keypoint: " ++ tab1 ++ truth (class_flag F 6 rec);
    lit "       synthetic: " ++ tab1 ++ truth (class_flag F 5 rec);
    lit "  RGB Color: " ++ tab1 ++ tab1 ++ n "R"%char ++ lit " " ++ n "G"%char ++ lit " " ++ n "B"%char;
    rule; [] ].
