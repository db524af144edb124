(** Specification vocabulary for the filter options: what a user asks for
    ([request]), how it is typed ([typed]), and which points it selects. *)
From Coq Require Import ZArith Reals List Bool.
Import ListNotations.
From Verif Require Import Outcome Bytes Float64 Float64_Proofs Classif_Model Header_Model Point_Model Point_Spec Point_Api Filter_Model Filter_Spec Bounds_Model Cli_Model.
Local Open Scope Z_scope.

(** A decimal numeral and its value. *)
Inductive numeral : text -> Z -> Prop :=
| num_digit : forall d, 0 <= d <= 9 -> numeral [48 + d] d
| num_more : forall s v d, numeral s v -> 0 <= d <= 9 -> numeral (s ++ [48 + d]) (10 * v + d).

(** A condition on a value: a range, or a comparison with a number. *)
Inductive condition (V : Type) := Between (lo hi : V) | Compared (o : cmp_op) (n : V).
Arguments Between {V}. Arguments Compared {V}.
Definition compared (o : cmp_op) (x n : R) : Prop :=
  match o with OpGe => (n <= x)%R | OpGt => (n < x)%R | OpLe => (x <= n)%R | OpLt => (x < n)%R | OpEq => x = n end.
Definition holds {V} (val : V -> R) (c : condition V) (x : V) : Prop :=
  match c with
  | Between lo hi => (val lo <= val x <= val hi)%R
  | Compared o n => compared o (val x) (val n)
  end.
Definition op_text (o : cmp_op) : text :=
  match o with OpGe => [62; 61] | OpGt => [62] | OpLe => [60; 61] | OpLt => [60] | OpEq => [61; 61] end.
(** [number s v]: the text [s] stands for [v]; "lo-hi", ">n", ... *)
Inductive condition_text {V} (number : text -> V -> Prop) : condition V -> text -> Prop :=
| ct_between : forall a b lo hi, number a lo -> number b hi -> condition_text number (Between lo hi) (a ++ [45] ++ b)
| ct_compared : forall o a n, number a n -> condition_text number (Compared o n) (op_text o ++ a).

(** The numbers of the three kinds of value.  Doubles: whatever the conversion
    returns, as long as the text contains none of - < = >. *)
Definition intensity_text (s : text) (v : Z) : Prop := numeral s v /\ v < 2 ^ 16.
Definition angle_text (s : text) (v : Z) : Prop := numeral s v /\ v < 2 ^ 31.
Definition time_text (lexd : text -> option f64) (s : text) (v : f64) : Prop :=
  lexd s = Some v /\ f64_fin v = true /\ Forall (fun c => c <> 45 /\ c <> 60 /\ c <> 61 /\ c <> 62) s.

(** "r,g,b-r,g,b" *)
Definition color_text (s : text) (c : color) : Prop :=
  exists r g b, numeral r (c_red c) /\ numeral g (c_green c) /\ numeral b (c_blue c) /\ color_ok c /\ s = r ++ [44] ++ g ++ [44] ++ b.
Definition colors_text (s : text) (c : color * color) : Prop :=
  exists lo hi, color_text lo (fst c) /\ color_text hi (snd c) /\ s = lo ++ [45] ++ hi.

(** A box, with or without limits on z. *)
Record box := mkBox { b_minx : f64; b_miny : f64; b_maxx : f64; b_maxy : f64; b_z : option (f64 * f64) }.
Definition has_height (zs : f64 * f64) : Prop := compare_distance (range_length (mkRange (fst zs) (snd zs))) f64_zero = false.
Definition box_ok (b : box) : Prop :=
  f64_fin (b_minx b) = true /\ f64_fin (b_miny b) = true /\ f64_fin (b_maxx b) = true /\ f64_fin (b_maxy b) = true /\
  forall zs, b_z b = Some zs -> f64_fin (fst zs) = true /\ f64_fin (snd zs) = true /\ has_height zs.
Definition in_box (b : box) (x y z : f64) : Prop :=
  (f64_R (b_minx b) <= f64_R x <= f64_R (b_maxx b))%R /\ (f64_R (b_miny b) <= f64_R y <= f64_R (b_maxy b))%R /\
  match b_z b with Some zs => (f64_R (fst zs) <= f64_R z <= f64_R (snd zs))%R | None => True end.

(** What is asked for. *)
Record request := mkRequest {
  q_classes : option (list Z); q_returns : option (list Z);
  q_extent : option box; q_sides : option box;
  q_intensity : option (condition Z); q_not_intensity : option (cmp_op * Z);
  q_angle : option (condition Z); q_not_angle : option (cmp_op * Z);
  q_time : option (condition f64); q_not_time : option (cmp_op * f64);
  q_color : option (color * color); q_not_color : option (color * color);
  q_thin : Z; q_last : bool; q_first : bool; q_valid : bool }.

(** An absent option restricts nothing. *)
Definition when {A} (o : option A) (P : A -> Prop) : Prop := match o with Some a => P a | None => True end.
(** Two optional values, both absent or related. *)
Definition both {A B} (Q : A -> B -> Prop) (a : option A) (b : option B) : Prop :=
  match a, b with Some a, Some b => Q a b | None, None => True | _, _ => False end.
Definition dropped {V} (number : text -> V -> Prop) (c : cmp_op * V) (s : text) : Prop :=
  condition_text number (Compared (fst c) (snd c)) s.

Definition between_colors (c : color * color) (x : color) : Prop :=
  c_red (fst c) <= c_red x <= c_red (snd c) /\ c_green (fst c) <= c_green x <= c_green (snd c) /\ c_blue (fst c) <= c_blue x <= c_blue (snd c).

(** The points selected by the options up to --thin ... *)
Definition selected_first (q : request) (p : point) : Prop :=
  when (q_classes q) (fun l => exists c, get_classification p = Ok c /\ In c l) /\
  when (q_returns q) (fun l => exists r, get_return_number p = Ok r /\ In r l) /\
  when (q_extent q) (fun b => exists x y z, get_x p = Ok x /\ get_y p = Ok y /\ get_z p = Ok z /\ in_box b x y z) /\
  when (q_intensity q) (fun c => exists v, get_intensity p = Ok v /\ holds IZR c v) /\
  when (q_not_intensity q) (fun c => exists v, get_intensity p = Ok v /\ ~ compared (fst c) (IZR v) (IZR (snd c))) /\
  when (q_angle q) (fun c => exists v, get_scan_angle p = Ok v /\ holds IZR c v) /\
  when (q_not_angle q) (fun c => exists v, get_scan_angle p = Ok v /\ ~ compared (fst c) (IZR v) (IZR (snd c))) /\
  when (q_time q) (fun c => exists v, get_time p = Ok v /\ holds f64_R c v) /\
  when (q_not_time q) (fun c => exists v, get_time p = Ok v /\ ~ compared (fst c) (f64_R v) (f64_R (snd c))) /\
  when (q_color q) (fun c => exists v, get_color p = Ok v /\ between_colors c v) /\
  when (q_not_color q) (fun c => exists v, get_color p = Ok v /\ ~ between_colors c v).
(** ... and by those after it. *)
Definition selected_then (q : request) (p : point) : Prop :=
  (q_last q = true -> exists r, get_return_number p = Ok r /\ get_number_of_returns p = Ok r) /\
  (q_first q = true -> get_return_number p = Ok 1) /\
  (q_valid q = true -> exists a, get_scan_angle p = Ok a /\ -90 <= a <= 90) /\
  when (q_sides q) (fun b => exists x y z, get_x p = Ok x /\ get_y p = Ok y /\ get_z p = Ok z /\ in_box b x y z).

(** How the request is typed.  --drop-classes and --drop-returns are not used; the
    sides of a box are given in full and not together with --extent. *)
Definition typed (lexd : text -> option f64) (atof : text -> f64) (o : cli) (q : request) : Prop :=
  both (fun l l' => l = l' /\ l <> [] /\ Forall (fun c => 0 <= c < 32) l) (q_classes q) (o_keep_classes o) /\ o_drop_classes o = None /\
  both (fun l l' => l = l' /\ l <> []) (q_returns q) (o_keep_returns o) /\ o_drop_returns o = None /\
  both (fun b s => box_ok b /\ map atof (tokens separators s) =
           match b_z b with None => [b_minx b; b_miny b; b_maxx b; b_maxy b]
                       | Some zs => [b_minx b; b_miny b; fst zs; b_maxx b; b_maxy b; snd zs] end) (q_extent q) (o_extent o) /\
  match q_sides q with
  | None => o_minx o = None /\ o_maxx o = None /\ o_miny o = None /\ o_maxy o = None /\ o_minz o = None /\ o_maxz o = None
  | Some b => o_extent o = None /\ box_ok b /\
      o_minx o = Some (b_minx b) /\ o_maxx o = Some (b_maxx b) /\ o_miny o = Some (b_miny b) /\ o_maxy o = Some (b_maxy b) /\
      o_minz o = option_map fst (b_z b) /\ o_maxz o = option_map snd (b_z b)
  end /\
  both (condition_text intensity_text) (q_intensity q) (o_keep_intensity o) /\ both (dropped intensity_text) (q_not_intensity q) (o_drop_intensity o) /\
  both (condition_text angle_text) (q_angle q) (o_keep_angle o) /\ both (dropped angle_text) (q_not_angle q) (o_drop_angle o) /\
  both (condition_text (time_text lexd)) (q_time q) (o_keep_time o) /\ both (dropped (time_text lexd)) (q_not_time q) (o_drop_time o) /\
  both (fun c s => colors_text s c) (q_color q) (o_keep_color o) /\ both (fun c s => colors_text s c) (q_not_color q) (o_drop_color o) /\
  o_thin o = q_thin q /\ 0 <= q_thin q < 2 ^ 32 /\
  o_last o = q_last q /\ o_first o = q_first q /\ o_valid o = q_valid q /\ q_first q && q_last q = false.

(** A point whose coordinates and time are finite. *)
Definition usual_point (p : point) : Prop :=
  point_wf p /\ (forall x, get_x p = Ok x -> f64_fin x = true) /\ (forall y, get_y p = Ok y -> f64_fin y = true) /\
  (forall z, get_z p = Ok z -> f64_fin z = true) /\ (forall t, get_time p = Ok t -> f64_fin t = true).

(** The points of a sequence: those selected first, of which, with a thinning
    factor k, the k-th, 2k-th, ... (counted from 0), of which those selected then. *)
Definition thinned {A} (k : Z) (l : list A) : list A := if k =? 0 then l else keep_at (every_kth k) 0 l.
