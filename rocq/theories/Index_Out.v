(** Model of IndexOutput (/repo/src/detail/index/indexoutput.cpp and the helpers
    in /repo/include/liblas/detail/index/indexoutput.hpp:73-119).

    Simplifications: the host is little endian (LIBLAS_SWAP_BYTES_N does nothing);
    the header the records are added to is its list of VLRs; allocation succeeds;
    the bytes gathered for one cell number fewer than 2^32 (m_TempWritePos does
    not wrap), and m_indexVLRTempData is the list of its first m_TempWritePos
    bytes, since WriteVLRData_n enlarges the vector whenever it is full. *)
From Coq Require Import ZArith List Bool.
Import ListNotations.
From Verif Require Import Outcome Bytes CStr Float64 Vlr_Model Index_Cell.
Local Open Scope Z_scope.
Local Notation length := List.length (only parsing).

Notation lenB l := (Z.of_nat (List.length l)).

(** std::vector<uint8_t>::resize *)
Definition resize (n : Z) (l : list Z) : list Z :=
  firstn (Z.to_nat n) l ++ repeat 0 (Z.to_nat n - length l).
Definition vlr_max : Z := 65535.

(** indexoutput.hpp:87-97, 110-118: [WriteVLRDataNoInc_n], [WriteVLRDataNoInc_str] *)
Definition put (dest : list Z) (pos : Z) (bs : list Z) : outcome (list Z) :=
  let dest := if lenB dest <? pos + lenB bs then resize (lenB dest + vlr_max) dest else dest in
  match buf_set dest (Z.to_nat pos) bs with Some d => Ok d | None => UB UBOutOfBounds end.

(** What the index writes about itself (index.hpp: m_versionMajor ... m_cellsZ). *)
Record ihead := mkIHead {
  ih_major : Z; ih_minor : Z;
  ih_author : list Z; ih_comment : list Z; ih_date : list Z;
  ih_minx : f64; ih_maxx : f64; ih_miny : f64; ih_maxy : f64; ih_minz : f64; ih_maxz : f64;
  ih_data : Z;           (* m_DataVLR_ID *)
  ih_count : Z;          (* m_pointRecordsCount *)
  ih_cx : Z; ih_cy : Z; ih_cz : Z }.

(** indexoutput.cpp:82-86 (and 88-92, 94-98): a string cut to 511 characters,
    with its terminating zero, behind its 16-bit length *)
Definition put_string (s : list Z) : list Z :=
  let t := until_nul (firstn 511 s) ++ [0] in le_enc 2 (lenB t) ++ t.
(** indexoutput.cpp:77-127: the 16000-byte vector holds at most 2 + 3 * 514 + 68
    bytes, so no write leaves it *)
Definition ihead_bytes (h : ihead) : list Z :=
  le_enc 1 (ih_major h) ++ le_enc 1 (ih_minor h) ++
  put_string (ih_author h) ++ put_string (ih_comment h) ++ put_string (ih_date h) ++
  le_enc 8 (f64_bits (ih_minx h)) ++ le_enc 8 (f64_bits (ih_maxx h)) ++
  le_enc 8 (f64_bits (ih_miny h)) ++ le_enc 8 (f64_bits (ih_maxy h)) ++
  le_enc 8 (f64_bits (ih_minz h)) ++ le_enc 8 (f64_bits (ih_maxz h)) ++
  le_enc 4 (ih_data h) ++ le_enc 4 (ih_count h) ++ le_enc 4 (ih_cx h) ++ le_enc 4 (ih_cy h) ++ le_enc 4 (ih_cz h).

(** "liblas", "LibLAS Index Header", "LibLAS Index Data" in the fixed char arrays *)
Definition liblas_user : list Z := [108; 105; 98; 108; 97; 115].
Definition desc_header : list Z := [76;105;98;76;65;83;32;73;110;100;101;120;32;72;101;97;100;101;114].
Definition desc_data : list Z := [76;105;98;76;65;83;32;73;110;100;101;120;32;68;97;116;97].
(** indexoutput.cpp:71-74, 131-134 *)
Definition head_vlr (h : ihead) : vlr :=
  mkVlr (ihead_bytes h) (pad_to 32 desc_header) (pad_to 16 liblas_user) 43707 42 (lenB (ihead_bytes h)).
(** indexoutput.cpp:138-140 with SetRecordLength(n), SetData(d) *)
Definition data_vlr (n : Z) (d : list Z) : vlr :=
  mkVlr d (pad_to 32 desc_data) (pad_to 16 liblas_user) 43707 43 (n mod 2 ^ 16).

(** indexoutput.hpp:58-64; o_vlrs: the VLRs of the header so far *)
Record out := mkOut {
  o_vlrs : list vlr;
  o_cell : list Z;       (* m_indexVLRCellPointData *)
  o_drs : Z;             (* m_DataRecordSize *)
  o_pts : Z;             (* m_DataPointsThisVLR *)
  o_first : bool;        (* m_FirstCellInVLR *)
  o_some : bool }.       (* m_SomeDataReadyToWrite *)

(** indexoutput.cpp:50-59, 61-151: m_DataRecordSize and m_SomeDataReadyToWrite
    are uninitialised until the first OutputCell sets them; shown as 0 and false *)
Definition initiate (vlrs : list vlr) (h : ihead) : out :=
  mkOut (vlrs ++ [head_vlr h]) [] 0 0 true false.

(** indexoutput.cpp:347-376 *)
Definition init_vlr_data (o : out) (x y : Z) : outcome out :=
  let d := resize vlr_max (o_cell o) in
  let! d := put d 0 (le_enc 4 x) in
  let! d := put d 4 (le_enc 4 y) in
  let! d := put d 8 (le_enc 4 x) in
  let! d := put d 12 (le_enc 4 y) in
  let! d := put d 16 (le_enc 4 24) in
  let! d := put d 20 (le_enc 4 0) in
  Ok (mkOut (o_vlrs o) d 24 0 false false).

(** indexoutput.cpp:211-219, 233-241, 246-254 *)
Definition run_bytes (m : runs) : list Z := flat_map (fun r => le_enc 4 (fst r) ++ le_enc 1 (snd r)) m.
(** indexoutput.cpp:202-220, 224-242 *)
Definition sub_bytes (s : subs) : list Z :=
  flat_map (fun q => le_enc 4 (fst q) ++ le_enc 4 (lenB (snd q)) ++ run_bytes (snd q)) s.
(** indexoutput.cpp:177-255 *)
Definition cell_bytes (x y : Z) (c : cell) : list Z :=
  le_enc 4 x ++ le_enc 4 y ++ le_enc 4 (k_num c) ++ le_enc 2 (k_minz c) ++ le_enc 2 (k_maxz c) ++
  le_enc 4 (get_num_records c) ++ le_enc 4 (get_num_sub_records c) ++ le_enc 4 (get_num_z_records c) ++
  (if get_num_z_records c =? 0 then [] else sub_bytes (k_zsub c)) ++
  (if get_num_sub_records c =? 0 then [] else sub_bytes (k_xysub c)) ++
  (if (get_num_z_records c =? 0) && (get_num_sub_records c =? 0) then run_bytes (k_pts c) else []).

(** indexoutput.cpp:320-329; every turn writes at least one byte *)
Fixpoint continuation (fuel : nat) (tmp : list Z) (written unwritten : Z) (d : list Z) (vlrs : list vlr) : outcome (list Z * list vlr) :=
  if unwritten <=? 0 then Ok (d, vlrs)
  else match fuel with
       | O => UB UBDiverge
       | S fuel =>
           let n := if unwritten <? vlr_max then unwritten else vlr_max in
           let! d := put d 0 (firstn (Z.to_nat n) (skipn (Z.to_nat written) tmp)) in
           continuation fuel tmp (written + n) (unwritten - n) d (vlrs ++ [data_vlr n d])
       end.

(** indexoutput.cpp:153-345 *)
Definition output_cell (o : out) (x y : Z) (c : cell) : outcome out :=
  let! o := (if o_first o then init_vlr_data o x y else Ok o) in
  if k_num c =? 0 then Ok o
  else
    let o := mkOut (o_vlrs o) (o_cell o) (o_drs o) ((o_pts o + k_num c) mod 2 ^ 32) (o_first o) (o_some o) in
    let tmp := cell_bytes x y c in
    let! o := (if o_some o && (vlr_max <? lenB tmp + o_drs o)
               then
                 let d := resize (o_drs o) (o_cell o) in
                 let! o := init_vlr_data (mkOut (o_vlrs o ++ [data_vlr (o_drs o) d]) d (o_drs o) (o_pts o) (o_first o) (o_some o)) x y in
                 Ok (mkOut (o_vlrs o) (o_cell o) (o_drs o) (k_num c) (o_first o) (o_some o))
               else Ok o) in
    if lenB tmp + o_drs o <=? vlr_max
    then
      let pos := o_drs o in
      let! d := put (o_cell o) 8 (le_enc 4 x) in
      let! d := put d 12 (le_enc 4 y) in
      let drs := o_drs o + lenB tmp in
      let! d := put d 16 (le_enc 4 drs) in
      let! d := put d 20 (le_enc 4 (o_pts o)) in
      let! d := put d pos tmp in
      Ok (mkOut (o_vlrs o) d drs (o_pts o) (o_first o) true)
    else
      let pos := o_drs o in
      let drs := o_drs o + lenB tmp in
      let d := if lenB (o_cell o) =? vlr_max then o_cell o else resize vlr_max (o_cell o) in
      let! d := put d 16 (le_enc 4 drs) in
      let! d := put d 20 (le_enc 4 (o_pts o)) in
      let written := vlr_max - pos in
      let! d := put d pos (firstn (Z.to_nat written) tmp) in
      let! (d, vlrs) := continuation (length tmp) tmp written (lenB tmp - written) d (o_vlrs o ++ [data_vlr vlr_max d]) in
      Ok (mkOut vlrs d drs (o_pts o) true false).

(** indexoutput.cpp:391-394 *)
Fixpoint pad_zero (n : nat) (drs : Z) (i : Z) (d : list Z) : outcome (list Z) :=
  match n with
  | O => Ok d
  | S n => match buf_set d (Z.to_nat (drs - i - 1)) [0] with
           | Some d => pad_zero n drs (i + 1) d
           | None => UB UBOutOfBounds
           end
  end.
(** indexoutput.cpp:378-411 *)
Definition finalize (o : out) : outcome (list vlr) :=
  if o_some o then
    let padding := o_drs o mod 4 in
    let! (d, drs) := (if negb (padding =? 0) && (o_drs o + padding <=? vlr_max)
                      then let! d := pad_zero (Z.to_nat padding) (o_drs o + padding) 0 (o_cell o) in Ok (d, o_drs o + padding)
                      else Ok (o_cell o, o_drs o)) in
    let d := resize drs d in
    Ok (o_vlrs o ++ [data_vlr drs d])
  else Ok (o_vlrs o).

(** index.cpp:1177-1266, the calls of the output object: the cells with their
    column and row, in the order the two nested loops visit them *)
Fixpoint output_cells (o : out) (cells : list (Z * Z * cell)) : outcome out :=
  match cells with
  | [] => Ok o
  | (x, y, c) :: cells => let! o := output_cell o x y c in output_cells o cells
  end.
Definition write_index (vlrs : list vlr) (h : ihead) (cells : list (Z * Z * cell)) : outcome (list vlr) :=
  let! o := output_cells (initiate vlrs h) cells in finalize o.
