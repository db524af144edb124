(** Model of the header-modification options of las2las:
    /repo/apps/laskernel.cpp:864-1203 (the part of GetTransforms that changes the
    header), /repo/apps/las2las.cpp:340-385 (main) and 44-240 (process, see
    Las2las_Model.v).

    Simplifications: the values of the options have been split by
    boost::program_options; texts are lists of character codes.  Not modelled:
    --a_srs, --a_vertcs, --add-wkt-srs, --t_srs (GDAL), --color-source,
    --point-translate, --fix-optech-scan-angle, --min-offset, --compressed and
    verbose output; the output name does not end in .laz.  [atof] and reading a
    file given to --add-vlr are parameters. *)
From Coq Require Import ZArith List Bool String.
Import ListNotations.
From Verif Require Import Outcome Bytes Float64 CStr Schema_Model Header_Model Vlr_Model Point_Model Stream_Model
  Reader_Model Writer_Model Las2las_Model Cli_Model.
Local Open Scope Z_scope.
Local Notation length := List.length (only parsing).

(** laskernel.cpp:386-400: [None] = not given *)
Record hopts := mkHopts {
  a_offset : option text; a_scale : option (list f64); a_file_format : option text; a_point_format : option Z; a_pad : option text;
  a_creation : option (list text); a_add_schema : bool; a_delete_vlr : option (list text); a_add_vlr : option (list text);
  a_software : option text; a_system : option text }.

Section Edit.
Variable atof : text -> f64.
(** laskernel.cpp:33-55, 65-88: the contents of a file; [None] = it cannot be
    opened (OpenInput throws) *)
Variable readraw : text -> option (list Z).
(** the tool: schema encoder, date *)
Variable t : tool.

Definition when_given {A} (o : option A) (f : A -> header -> outcome header) (h : header) : outcome header :=
  match o with Some a => f a h | None => Ok h end.

(** laskernel.cpp:868-895 *)
Definition edit_offset (s : text) (h : header) : outcome header :=
  match map atof (filter (fun w => negb (zlist_eqb w (str "min"))) (tokens separators s)) with
  | [x; y; z] => Ok (set_offset h x y z)
  | _ => Throw ERuntime
  end.
(** laskernel.cpp:898-925 *)
Definition edit_scale (l : list f64) (h : header) : outcome header :=
  match l with [x; y; z] => Ok (set_scale h x y z) | _ => Throw ERuntime end.
(** laskernel.cpp:927-955: the first number is not looked at; the conversion to
    uint8_t comes after the test *)
Fixpoint atois (l : list text) : outcome (list Z) :=
  match l with [] => Ok [] | s :: l => let! n := atoi s in let! r := atois l in Ok (n :: r) end.
Definition edit_file_format (s : text) (h : header) : outcome header :=
  let! vs := atois (tokens [46] s) in
  match vs with
  | _ :: minor :: _ => if 2 <? minor then Throw ERuntime else set_version_minor h (minor mod 2 ^ 8)
  | _ => Throw ERuntime
  end.
(** laskernel.cpp:957-969: the value is an uint32_t *)
Definition edit_point_format (k : Z) (h : header) : outcome header :=
  if 3 <? k then Throw ERuntime
  else match set_header_format h k with (h1, Ok _) => Ok h1 | (_, Throw e) => Throw e | (_, UB u) => UB u end.
(** laskernel.cpp:970-984 *)
Definition edit_pad (s : text) (h : header) : outcome header :=
  let! n := atoi s in if n =? 0 then Throw ERuntime else Ok (set_data_offset h n).
(** laskernel.cpp:986-1045: one argument other than "now", or more than two, give
    day 0 of year 0 *)
Definition edit_creation (l : list text) (h : header) : outcome header :=
  let! (day, year) :=
    match l with
    | [d; y] => let! d := atoi d in let! y := atoi y in
                if (d <? 0) || (366 <? d) then Throw ERuntime else if y <? 0 then Throw ERuntime else Ok (d, y)
    | _ => Ok (0, 0)
    end in
  match l with
  | [w] => if zlist_eqb w (str "now")
           then let! n := header_new (t_doy t) (t_year t) in Ok (set_creation_year (set_creation_doy h (h_doy n)) (h_year n))
           else Ok (set_creation_year (set_creation_doy h day) year)
  | _ => Ok (set_creation_year (set_creation_doy h day) year)
  end.
(** laskernel.cpp:1047-1051 *)
Definition edit_add_schema (h : header) : header := add_vlr h (t_sv t (h_schema h)).
(** laskernel.cpp:1076-1089, 1114-1127: a VLR id *)
Definition vlr_id (s : text) : outcome Z :=
  let! n := atoi s in if n <? 0 then Throw ERuntime else if 65535 <? n then Throw ERuntime else Ok n.
(** laskernel.cpp:1053-1091 *)
Fixpoint delete_pairs (l : list text) (h : header) : outcome header :=
  match l with
  | name :: id :: l => let! n := vlr_id id in delete_pairs l (delete_vlrs h name n)
  | _ => Ok h
  end.
Definition edit_delete (l : list text) (h : header) : outcome header :=
  if Nat.odd (length l) then Throw ERuntime else delete_pairs l h.
(** laskernel.cpp:1143-1157; [&data.front()] of an empty vector is undefined *)
Definition vlr_payload (s : text) : outcome (list Z) :=
  match readraw s with Some [] => UB UBOutOfBounds | Some d => Ok d | None => Ok s end.
(** laskernel.cpp:1093-1177 *)
Definition edit_add (l : list text) (h : header) : outcome header :=
  match l with
  | user :: id :: rest =>
      let! (desc, what) := match rest with [d] => Ok (None, d) | [c; d] => Ok (Some c, d) | _ => Throw ERuntime end in
      let! v := vlr_set_user vlr_new user in
      let! n := vlr_id id in
      let v := vlr_set_id v n in
      let! v := match desc with Some c => vlr_set_desc v c | None => Ok v end in
      let! d := vlr_payload what in
      if 65535 <? Z.of_nat (length d) then Throw ERuntime
      else Ok (add_vlr h (vlr_set_size (vlr_set_data v d) (Z.of_nat (length d))))
  | _ => Throw ERuntime
  end.

(** laskernel.cpp:864-1203, in the order of the code *)
Definition edit_header (o : hopts) (h : header) : outcome header :=
  let! h := when_given (a_offset o) edit_offset h in
  let! h := when_given (a_scale o) edit_scale h in
  let! h := when_given (a_file_format o) edit_file_format h in
  let! h := when_given (a_point_format o) edit_point_format h in
  let! h := when_given (a_pad o) edit_pad h in
  let! h := when_given (a_creation o) edit_creation h in
  let h := if a_add_schema o then edit_add_schema h else h in
  let! h := when_given (a_delete_vlr o) edit_delete h in
  let! h := when_given (a_add_vlr o) edit_add h in
  let! h := when_given (a_software o) (fun s h => set_software_id h s) h in
  when_given (a_system o) (fun s h => set_system_id h s) h.

(** las2las.cpp:340-385 and 44-240, as [Las2las_Model.las2las] with the header
    changed in between *)
Definition las2las_edit {FS} (o : hopts) (split_mb split_pts : Z) (flt : option (FS -> point -> bool * FS)) (fs : FS)
    (fuel : nat) (F : list Z) : outcome (list (list Z)) :=
  let! r0 := reader_open (t_xml t) (t_doy t) (t_year t) F in
  let! h := edit_header o (r_hdr r0) in
  let! r := reader_open (t_xml t) (t_doy t) (t_year t) F in
  let! w := writer_new (t_sv t) (os_open []) h in
  let! (r1, l) := point_loop t h split_mb split_pts flt fuel r fs (mkLoop w cs_new (split_budget split_mb) 0 []) in
  let! G := writer_close (l_w l) in
  if (split_mb =? 0) && (split_pts =? 0)
  then let! _ := reader_reset (t_xml t) r1 in
       let! G := repair_file t (l_cs l) G in Ok [G]
  else Ok (rev (G :: l_done l)).
End Edit.
