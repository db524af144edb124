(** Model of the temporary file of the index builder
    (/repo/src/index.cpp: PurgePointsToTempFile, LoadCellFromTempFile,
    OpenTempFile).

    Simplifications: opening, reading and writing the file never fail because of
    the device (a failure makes BuildIndex return false); the file is a byte list
    with one position; [fwrite] of a variable writes its little-endian image (the
    build host is little endian, and the file is read back on the same host); the
    [m_cellsX] rows of [m_cellsY] cells are one list, row after row, which is the
    order the two nested loops visit them in. *)
From Coq Require Import ZArith List Bool.
Import ListNotations.
From Verif Require Import Outcome Bytes Stream_Model Index_Cell.
Local Open Scope Z_scope.

(** FILE* opened with "wb+" *)
Record cfile := mkFile { cf_bytes : list Z; cf_pos : nat }.
Definition fseek_set (f : cfile) (o : Z) : cfile := mkFile (cf_bytes f) (Z.to_nat o).
Definition fseek_end (f : cfile) : cfile := mkFile (cf_bytes f) (length (cf_bytes f)).
(** fwrite of one object of [length bs] bytes *)
Definition fwrite (f : cfile) (bs : list Z) : cfile :=
  mkFile (file_write (cf_bytes f) (cf_pos f) bs) (cf_pos f + length bs).
(** fread of one unsigned integer of [n] bytes; None: fewer than 1 object read *)
Definition fread (f : cfile) (n : nat) : option (Z * cfile) :=
  match buf_get (cf_bytes f) (cf_pos f) n with
  | Some bs => Some (le_dec bs, mkFile (cf_bytes f) (cf_pos f + n))
  | None => None
  end.

(** index.hpp:132-139: m_tempFile (None: a null pointer), m_tempFileStarted,
    m_tempFileWrittenBytes *)
Record temp := mkTemp { t_file : option cfile; t_started : bool; t_written : Z }.
Definition temp0 : temp := mkTemp None false 0.

(** index.cpp:1539-1546 *)
Definition open_temp (t : temp) : temp := mkTemp (Some (mkFile [] 0)) false 0.

(** index.cpp:1400-1407: the table of offsets, all zero *)
Fixpoint write_table (n : nat) (f : cfile) : cfile :=
  match n with
  | O => f
  | S n => write_table n (fwrite f (le_enc 8 0))
  end.
(** index.cpp:1449-1462 *)
Fixpoint write_runs (f : cfile) (w : Z) (m : runs) : cfile * Z :=
  match m with
  | [] => (f, w)
  | (id, n) :: m => write_runs (fwrite (fwrite f (le_enc 4 id)) (le_enc 1 n)) ((w + 4 + 1) mod 2 ^ 64) m
  end.
(** index.cpp:1414-1465, the body of the loops, for the cell number
    [k = x * m_cellsY + y] *)
Definition purge_cell (f : cfile) (w : Z) (k : Z) (c : cell) : cell * cfile * Z :=
  if get_num_records c =? 0 then (c, f, w)
  else
    let last := if k_off c =? 0 then (k * 8) mod 2 ^ 64 else k_off c in
    let f := fwrite (fseek_set f last) (le_enc 8 w) in
    let c := set_file_offset c w in
    let f := fwrite (fseek_end f) (le_enc 8 0) in
    let w := (w + 8) mod 2 ^ 64 in
    let f := fwrite f (le_enc 4 (get_num_records c)) in
    let w := (w + 4) mod 2 ^ 64 in
    let '(f, w) := write_runs f w (firstn (Z.to_nat (get_num_records c)) (k_pts c)) in
    (remove_main_records c, f, w).
(** index.cpp:1410-1467 *)
Fixpoint purge_cells (f : cfile) (w : Z) (k : Z) (cells : list cell) : list cell * cfile * Z :=
  match cells with
  | [] => ([], f, w)
  | c :: cells =>
      let '(c, f, w) := purge_cell f w k c in
      let '(cells, f, w) := purge_cells f w (k + 1) cells in
      (c :: cells, f, w)
  end.
(** index.cpp:1390-1475; [total] is m_totalCells *)
Definition purge (total : Z) (t : temp) (cells : list cell) : list cell * temp :=
  let t := match t_file t with Some _ => t | None => open_temp t end in
  match t_file t with
  | None => (cells, t)
  | Some f =>
      let '(f, w) := if t_started t then (f, t_written t)
                     else (write_table (Z.to_nat total) f, (total * 8) mod 2 ^ 64) in
      let '(cells, f, w) := purge_cells f w 0 cells in
      (cells, mkTemp (Some f) true w)
  end.

(** index.cpp:1515-1526 *)
Fixpoint read_runs (n : nat) (f : cfile) (c : cell) : option (cell * cfile) :=
  match n with
  | O => Some (c, f)
  | S n =>
      match fread f 4 with
      | None => None
      | Some (id, f) =>
          match fread f 1 with
          | None => None
          | Some (m, f) => read_runs n f (add_point_run c id m)
          end
      end
  end.
(** index.cpp:1498-1527.  [fuel]: each pass of the loop reads at least 12 bytes of
    a file whose offsets only grow; a loop of more passes than the file has bytes
    goes round for ever. *)
Fixpoint load_chain (fuel : nat) (f : cfile) (off : Z) (c : cell) : outcome (option cell) :=
  if off <=? 0 then Ok (Some c)
  else
    match fuel with
    | O => UB UBDiverge
    | S fuel =>
        match fread (fseek_set f off) 8 with
        | None => Ok None
        | Some (off, f) =>
            match fread f 4 with
            | None => Ok None
            | Some (n, f) =>
                match read_runs (Z.to_nat n) f c with
                | None => Ok None
                | Some (c, f) => load_chain fuel f off c
                end
            end
        end
    end.
(** index.cpp:1477-1537 for the cell number [k]: None when it returns false.
    fseek on a null FILE* is undefined. *)
Definition load_cell (t : temp) (k : Z) (c : cell) : outcome (option cell) :=
  match t_file t with
  | None => UB UBNull
  | Some f =>
      let former := k_num c in
      let c := set_num_points c 0 in
      match fread (fseek_set f ((k * 8) mod 2 ^ 64)) 8 with
      | None => Ok None
      | Some (off, f) =>
          let! r := load_chain (length (cf_bytes f)) f off c in
          match r with
          | None => Ok None
          | Some c => if k_num c =? former then Ok (Some c) else Ok None
          end
      end
  end.
