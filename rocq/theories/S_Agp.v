(** AGP capability, AGP 3.0 section 6.1. Offsets are relative to the
    capability; the slice starts at offset 02h. *)

From Verif Require Import Base Spec M_Agp.

Definition identifier_of (w : N) : Identifier.t :=
  {| Identifier.minor := bits w 0 4;
     Identifier.major := bits w 4 4 |}.

Definition cal_cycle_of (v : N) : CalCycle.t :=
  match v with
  | 0 => CalCycle.Period4ms
  | 1 => CalCycle.Period16ms
  | 2 => CalCycle.Period64ms
  | 3 => CalCycle.Period256ms
  | 7 => CalCycle.CalibrationCycleNotNeeded
  | v => CalCycle.Reserved v
  end.

Definition data_rate_support_of (v : N) : DataRateSupport.t :=
  match v with
  | 1 => DataRateSupport.Speed4x
  | 2 => DataRateSupport.Speed8x
  | 3 => DataRateSupport.Speed4xAnd8x
  | v => DataRateSupport.Reserved v
  end.

Definition status_of (w : N) : Status.t :=
  {| Status.rq := bits w 24 8;
     Status.isoch_support := bit w 17;
     Status.reserved := bit w 16;
     Status.arqsz := bits w 13 3;
     Status.cal_cycle := cal_cycle_of (bits w 10 3);
     Status.sba := bit w 9;
     Status.ita_coh := bit w 8;
     Status.gart64b := bit w 7;
     Status.htrans := bit w 6;
     Status.over4g := bit w 5;
     Status.fw := bit w 4;
     Status.agp_3_0_mode := bit w 3;
     Status.rate := data_rate_support_of (bits w 0 3) |}.

Definition data_rate_enabled_of (v : N) : DataRateEnabled.t :=
  match v with
  | 1 => DataRateEnabled.Speed4x
  | 2 => DataRateEnabled.Speed8x
  | v => DataRateEnabled.Reserved v
  end.

Definition command_of (w : N) : Command.t :=
  {| Command.prq := bits w 24 8;
     Command.parqsz := bits w 13 3;
     Command.pcal_cycle := cal_cycle_of (bits w 10 3);
     Command.sba_enable := bit w 9;
     Command.agp_enable := bit w 8;
     Command.gart64b := bit w 7;
     Command.over4g := bit w 5;
     Command.fw_enable := bit w 4;
     Command.drate := data_rate_enabled_of (bits w 0 3) |}.

Definition isochronous_status_of (w : N) : IsochronousStatus.t :=
  {| IsochronousStatus.maxbw := bits w 16 8;
     IsochronousStatus.isoch_n := bits w 8 8;
     IsochronousStatus.isoch_y := IsochY.mk (bits w 6 2);
     IsochronousStatus.isoch_l := bits w 3 3;
     IsochronousStatus.isoch_error_code := IsochErrorCode.mk (bits w 0 2) |}.

Definition control_of (w : N) : Control.t :=
  {| Control.cal_cycle_dis := bit w 9;
     Control.aperenb := bit w 8;
     Control.gtlben := bit w 7 |}.

Definition isochronous_command_of (w : N) : IsochronousCommand.t :=
  {| IsochronousCommand.pisoch_n := bits w 8 8;
     IsochronousCommand.pisoch_y := bits w 6 2 |}.


(** Optional registers, present as far as bytes are available. *)
Definition opt {A} (s : list N) (upto : N) (x : A) : option A :=
  if upto - 2 <=? size_of s then Some x else None.

Definition agp_of (s : list N) : AcceleratedGraphicsPort.t :=
  let isoch := bit (dword s (0x04 - 2)) 17 in
  {| AcceleratedGraphicsPort.identifier := identifier_of (word s (0x02 - 2));
     AcceleratedGraphicsPort.status := status_of (dword s (0x04 - 2));
     AcceleratedGraphicsPort.command := command_of (dword s (0x08 - 2));
     AcceleratedGraphicsPort.isochronous_status :=
       if isoch then opt s 0x10 (isochronous_status_of (dword s (0x0C - 2))) else None;
     AcceleratedGraphicsPort.control := opt s 0x14 (control_of (dword s (0x10 - 2)));
     AcceleratedGraphicsPort.aperture_size := opt s 0x16 (ApertureSize.mk (word s (0x14 - 2)));
     AcceleratedGraphicsPort.enabled_aperture_page_size :=
       opt s 0x18 (EnabledAperturePageSize.mk (word s (0x16 - 2)));
     AcceleratedGraphicsPort.gart_pointer :=
       opt s 0x1C
         {| GartPointer.gartlo := dword s (0x18 - 2);
            GartPointer.garthi := if 0x20 - 2 <=? size_of s then dword s (0x1C - 2) else 0 |};
     AcceleratedGraphicsPort.isochronous_command :=
       if isoch then opt s 0x22 (isochronous_command_of (word s (0x20 - 2))) else None |}.
