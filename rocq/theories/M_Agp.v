(** Model of src/capabilities/accelerated_graphics_port.rs (capability 02h). *)

From Verif Require Import Base M_Common.

(* src/capabilities/accelerated_graphics_port.rs:195-198 *)
Module Identifier.
Record t := mk {
  minor : N;
  major : N }.
(* src/capabilities/accelerated_graphics_port.rs:200-205 *)
Definition from (word : N) : t :=
  let '(minor, major, _) :=
    lsb [4; 4; 8] word in
  {| minor := minor; major := major |}.
End Identifier.

(* src/capabilities/accelerated_graphics_port.rs:277-290 *)
Module CalCycle.
Inductive t :=
| Period4ms
| Period16ms
| Period64ms
| Period256ms
| Reserved (v : N)
| CalibrationCycleNotNeeded.
(* src/capabilities/accelerated_graphics_port.rs:292-303 *)
Definition from (byte : N) : t :=
  match byte with
  | 0 => Period4ms
  | 1 => Period16ms
  | 2 => Period64ms
  | 3 => Period256ms
  | 7 => CalibrationCycleNotNeeded
  | v => Reserved v
  end.
(* src/capabilities/accelerated_graphics_port.rs:305-316 *)
Definition to_u8 (data : t) : N :=
  match data with
  | Period4ms => 0
  | Period16ms => 1
  | Period64ms => 2
  | Period256ms => 3
  | CalibrationCycleNotNeeded => 7
  | Reserved v => v
  end.
End CalCycle.

(* src/capabilities/accelerated_graphics_port.rs:320-329 *)
Module DataRateSupport.
Inductive t :=
| Speed4x
| Speed8x
| Speed4xAnd8x
| Reserved (v : N).
(* src/capabilities/accelerated_graphics_port.rs:331-340 *)
Definition from (byte : N) : t :=
  match byte with
  | 1 => Speed4x
  | 2 => Speed8x
  | 3 => Speed4xAnd8x
  | v => Reserved v
  end.
(* src/capabilities/accelerated_graphics_port.rs:342-351 *)
Definition to_u8 (data : t) : N :=
  match data with
  | Speed4x => 1
  | Speed8x => 2
  | Speed4xAnd8x => 3
  | Reserved v => v
  end.
End DataRateSupport.

(* src/capabilities/accelerated_graphics_port.rs:209-236 *)
Module Status.
Record t := mk {
  rq : N;
  isoch_support : bool;
  reserved : bool;
  arqsz : N;
  cal_cycle : CalCycle.t;
  sba : bool;
  ita_coh : bool;
  gart64b : bool;
  htrans : bool;
  over4g : bool;
  fw : bool;
  agp_3_0_mode : bool;
  rate : DataRateSupport.t }.
(* src/capabilities/accelerated_graphics_port.rs:238-272 *)
Definition from (dword : N) : t :=
  let '(rate, agp_3_0_mode, fw, over4g, htrans, gart64b, ita_coh, sba, cal_cycle, arqsz,
       reserved, isoch_support, _, rq) :=
    lsb [3; 1; 1; 1; 1; 1; 1; 1; 3; 3; 1; 1; 6; 8] dword in
  {| rq := rq; isoch_support := tobool isoch_support; reserved := tobool reserved;
       arqsz := arqsz; cal_cycle := CalCycle.from cal_cycle; sba := tobool sba;
       ita_coh := tobool ita_coh; gart64b := tobool gart64b; htrans := tobool htrans;
       over4g := tobool over4g; fw := tobool fw; agp_3_0_mode := tobool agp_3_0_mode;
       rate := DataRateSupport.from rate |}.
End Status.

(* src/capabilities/accelerated_graphics_port.rs:412-419 *)
Module DataRateEnabled.
Inductive t :=
| Speed4x
| Speed8x
| Reserved (v : N).
(* src/capabilities/accelerated_graphics_port.rs:421-429 *)
Definition from (byte : N) : t :=
  match byte with
  | 1 => Speed4x
  | 2 => Speed8x
  | v => Reserved v
  end.
(* src/capabilities/accelerated_graphics_port.rs:431-439 *)
Definition to_u8 (data : t) : N :=
  match data with
  | Speed4x => 1
  | Speed8x => 2
  | Reserved v => v
  end.
End DataRateEnabled.

(* src/capabilities/accelerated_graphics_port.rs:355-377 *)
Module Command.
Record t := mk {
  prq : N;
  parqsz : N;
  pcal_cycle : CalCycle.t;
  sba_enable : bool;
  agp_enable : bool;
  gart64b : bool;
  over4g : bool;
  fw_enable : bool;
  drate : DataRateEnabled.t }.
(* src/capabilities/accelerated_graphics_port.rs:379-408 *)
Definition from (dword : N) : t :=
  let '(drate, _, fw_enable, over4g, _, gart64b, agp_enable, sba_enable, pcal_cycle, parqsz,
       _, _, prq) :=
    lsb [3; 1; 1; 1; 1; 1; 1; 1; 3; 3; 1; 7; 8] dword in
  {| prq := prq; parqsz := parqsz; pcal_cycle := CalCycle.from pcal_cycle;
       sba_enable := tobool sba_enable; agp_enable := tobool agp_enable;
       gart64b := tobool gart64b; over4g := tobool over4g; fw_enable := tobool fw_enable;
       drate := DataRateEnabled.from drate |}.
End Command.

(* src/capabilities/accelerated_graphics_port.rs:471-471 *)
Module IsochY.
Record t := mk {
  v0 : N }.
End IsochY.

(* src/capabilities/accelerated_graphics_port.rs:487-487 *)
Module IsochErrorCode.
Record t := mk {
  v0 : N }.
End IsochErrorCode.

(* src/capabilities/accelerated_graphics_port.rs:443-454 *)
Module IsochronousStatus.
Record t := mk {
  maxbw : N;
  isoch_n : N;
  isoch_y : IsochY.t;
  isoch_l : N;
  isoch_error_code : IsochErrorCode.t }.
(* src/capabilities/accelerated_graphics_port.rs:455-467 *)
Definition from (dword : N) : t :=
  let '(isoch_error_code, _, isoch_l, isoch_y, isoch_n, maxbw, _) :=
    lsb [2; 1; 3; 2; 8; 8; 8] dword in
  {| maxbw := maxbw; isoch_n := isoch_n; isoch_y := IsochY.mk isoch_y; isoch_l := isoch_l;
       isoch_error_code := IsochErrorCode.mk isoch_error_code |}.
End IsochronousStatus.

(* src/capabilities/accelerated_graphics_port.rs:491-498 *)
Module Control.
Record t := mk {
  cal_cycle_dis : bool;
  aperenb : bool;
  gtlben : bool }.
(* src/capabilities/accelerated_graphics_port.rs:499-509 *)
Definition from (dword : N) : t :=
  let '(_, gtlben, aperenb, cal_cycle_dis, _, _, _) :=
    lsb [7; 1; 1; 1; 6; 8; 8] dword in
  {| cal_cycle_dis := tobool cal_cycle_dis; aperenb := tobool aperenb;
       gtlben := tobool gtlben |}.
End Control.

(* src/capabilities/accelerated_graphics_port.rs:513-513 *)
Module ApertureSize.
Record t := mk {
  v0 : N }.
End ApertureSize.

(* src/capabilities/accelerated_graphics_port.rs:517-517 *)
Module EnabledAperturePageSize.
Record t := mk {
  v0 : N }.
End EnabledAperturePageSize.

(* src/capabilities/accelerated_graphics_port.rs:521-526 *)
Module GartPointer.
Record t := mk {
  gartlo : N;
  garthi : N }.
End GartPointer.

(* src/capabilities/accelerated_graphics_port.rs:530-538 *)
Module IsochronousCommand.
Record t := mk {
  pisoch_n : N;
  pisoch_y : N }.
(* src/capabilities/accelerated_graphics_port.rs:539-544 *)
Definition from (word : N) : t :=
  let '(_, pisoch_y, pisoch_n) :=
    lsb [6; 2; 8] word in
  {| pisoch_n := pisoch_n; pisoch_y := pisoch_y |}.
End IsochronousCommand.

(* src/capabilities/accelerated_graphics_port.rs:111-121 *)
Module AcceleratedGraphicsPort.
Record t := mk {
  identifier : Identifier.t;
  status : Status.t;
  command : Command.t;
  isochronous_status : option IsochronousStatus.t;
  control : option Control.t;
  aperture_size : option ApertureSize.t;
  enabled_aperture_page_size : option EnabledAperturePageSize.t;
  gart_pointer : option GartPointer.t;
  isochronous_command : option IsochronousCommand.t }.
(* src/capabilities/accelerated_graphics_port.rs:142-170: one link of the
   [and_then] chain, [seq.tail.le_bytes_try_into()]. *)
Definition next (f : fld) (seq0 : option (tupF [f] * list N)) (g : fld) :
  option (tupF [g] * list N) :=
  match seq0 with Some (_, tail) => seq [g] tail | None => None end.
(* src/capabilities/accelerated_graphics_port.rs:123-191: a variable assigned in
   the k-th closure of the chain is [Some] exactly when that closure runs. *)
Definition try_from (slice : list N) : res CapabilityDataError.t t :=
  ' ((identifier, status, command), tail) <-
    ok_or (seq [U16; U32; U32] slice) (CapabilityDataError.mk "AGP" 10) ;;
  let status := Status.from status in
  let s1 := seq [U32] tail in
  let s2 := next U32 s1 U32 in
  let s3 := next U32 s2 U16 in
  let s4 := next U16 s3 U16 in
  let s5 := next U16 s4 U32 in
  let s6 := next U32 s5 U32 in
  let s7 := next U32 s6 U16 in
  let gartlo := option_map fst s5 in
  let garthi := option_map fst s6 in
  let gart_pointer :=
    match gartlo, garthi with
    | Some gartlo, Some garthi => Some {| GartPointer.gartlo := gartlo; GartPointer.garthi := garthi |}
    | Some gartlo, None => Some {| GartPointer.gartlo := gartlo; GartPointer.garthi := 0 |}
    | _, _ => None
    end in
  Ok {| identifier := Identifier.from identifier;
        status := status;
        command := Command.from command;
        isochronous_status :=
          if Status.isoch_support status
          then option_map (fun x => IsochronousStatus.from (fst x)) s1 else None;
        control := option_map (fun x => Control.from (fst x)) s2;
        aperture_size := option_map (fun x => ApertureSize.mk (fst x)) s3;
        enabled_aperture_page_size := option_map (fun x => EnabledAperturePageSize.mk (fst x)) s4;
        gart_pointer := gart_pointer;
        isochronous_command :=
          if Status.isoch_support status
          then option_map (fun x => IsochronousCommand.from (fst x)) s7 else None |}.
End AcceleratedGraphicsPort.
