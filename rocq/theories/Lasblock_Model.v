(** Model of lasblock --write-points: /repo/apps/lasblock.cpp:45-58 (start_writer),
    79-143 (write_tiles), 189-325 (main), and of Chipper::Load's use of the reader
    (/repo/src/chipper.cpp:188-206).
    Not modelled: option parsing, verbose output, compressed output, the index
    file written without --write-points, the names of the files (the result is
    the list of the files in the order of the blocks).  File creation succeeds. *)
From Coq Require Import ZArith List Bool.
Import ListNotations.
From Verif Require Import Outcome Bytes Float64 Header_Model Point_Model Stream_Model Reader_Model Writer_Model Writer_Api
  Chipper_Model Las2las_Model.
Local Open Scope Z_scope.

(** chipper.cpp:197-206: while (m_reader->ReadNextPoint()) with GetX and GetY.
    The result is undefined when the fuel is used up. *)
Fixpoint load_points (fuel : nat) (r : reader) : outcome (list (f64 * f64) * reader) :=
  match fuel with
  | O => UB UBDiverge
  | S k =>
      match reader_next None (fun p => Ok (p_data p)) r tt with
      | ((r1, _), Ok true) =>
          let! x := get_x (r_point r1) in let! y := get_y (r_point r1) in
          let! (l, r2) := load_points k r1 in Ok ((x, y) :: l, r2)
      | ((r1, _), Ok false) => Ok ([], r1)
      | (_, Throw e) => Throw e
      | (_, UB u) => UB u
      end
  end.

(** lasblock.cpp:122-131: the points of a block *)
Fixpoint copy_ids (r : reader) (q : csummary) (w : writer) (ids : list Z) : outcome (reader * csummary * writer) :=
  match ids with
  | [] => Ok (r, q, w)
  | i :: ids =>
      match reader_at (fun p => Ok (p_data p)) r i with
      | (r1, Ok true) =>
          let! q := cs_add q (r_point r1) in
          let! w := write_point w (r_point r1) in copy_ids r1 q w ids
      | (r1, Ok false) => copy_ids r1 q w ids
      | (_, Throw e) => Throw e
      | (_, UB u) => UB u
      end
  end.

(** Header::SetExtent (header.cpp:514-517) with the bounds of a block: two ranges,
    the third reads as 0 (bounds.hpp:226-236, 246-256) *)
Definition set_extent2 (h : header) (minx miny maxx maxy : f64) : header :=
  set_max (set_min h minx miny f64_zero) maxx maxy f64_zero.
(** lasblock.cpp:101-138: one block *)
Definition write_tile (t : tool) (r : reader) (h : header) (c : chip) (b : block) : outcome (reader * header * list Z) :=
  let h := set_extent2 h (b_minx b) (b_miny b) (b_maxx b) (b_maxy b) in
  let! w := writer_new (t_sv t) (os_open []) h in
  let! ids := block_ids c b in
  let! (r, q, w) := copy_ids r cs_new w ids in
  let! G := writer_close w in
  let! G := repair_file t q G in
  Ok (r, h, G).
(** lasblock.cpp:99-143; [header] is one object, changed for every block *)
Fixpoint write_tiles (t : tool) (r : reader) (h : header) (c : chip) (bs : list block) : outcome (list (list Z)) :=
  match bs with
  | [] => Ok []
  | b :: bs =>
      let! (r, h, G) := write_tile t r h c b in
      let! gs := write_tiles t r h c bs in Ok (G :: gs)
  end.

(** lasblock.cpp:285-306: the chipper is used with its default options, the
    capacity (a long) becomes a uint32_t *)
Definition lasblock (t : tool) (srt : sorter) (junk : Z) (capacity : Z) (fuel : nat) (F : list Z) : outcome (list (list Z)) :=
  let! r := reader_open (t_xml t) (t_doy t) (t_year t) F in
  let! (pts, r) := load_points fuel r in
  let! c := chip_run srt junk false (capacity mod 2 ^ 32) (h_npts (r_hdr r)) pts in
  write_tiles t r (r_hdr r) c (c_blocks c).
