(** Model of [ClassCode::meaning], src/header/class_code.rs:26-235. *)

From Coq Require Import String.
From Verif Require Import Base M_Header.

(** The result triple of [meaning]. *)
Definition names : Type := string * option string * option string.

(** One arm of the [match]: [None] is the pattern [_]. *)
Record arm := mk_arm {
  arm_base : option N;
  arm_sub : option N;
  arm_interface : option N;
  arm_names : names }.
Definition row (b s i : option N) (n : string) (sn inn : option string) : arm :=
  mk_arm b s i (n, sn, inn).

Definition pat (p : option N) (v : N) : bool :=
  match p with None => true | Some c => c =? v end.
Definition matches (a : arm) (b s i : N) : bool :=
  pat (arm_base a) b && pat (arm_sub a) s && pat (arm_interface a) i.

(** Rust [match]: the first arm whose pattern matches. *)
Fixpoint first_arm (arms : list arm) (b s i : N) : option names :=
  match arms with
  | [] => None
  | a :: r => if matches a b s i then Some (arm_names a) else first_arm r b s i
  end.

Local Open Scope string_scope.
(* src/header/class_code.rs:29-232, one row per arm in source order *)
Definition arms : list arm :=
  [ row (Some 0) (Some 0) (None) "Unclassified device" (Some "Non-VGA unclassified device") (None);
    row (Some 0) (Some 1) (None) "Unclassified device" (Some "VGA compatible unclassified device") (None);
    row (Some 0) (Some 5) (None) "Unclassified device" (Some "Image coprocessor") (None);
    row (Some 0) (None) (None) "Unclassified device" (None) (None);
    row (Some 1) (Some 0) (None) "Mass storage controller" (Some "SCSI storage controller") (None);
    row (Some 1) (Some 1) (Some 0) "Mass storage controller" (Some "IDE interface") (Some "ISA Compatibility mode-only controller");
    row (Some 1) (Some 1) (Some 5) "Mass storage controller" (Some "IDE interface") (Some "PCI native mode-only controller");
    row (Some 1) (Some 1) (Some 10) "Mass storage controller" (Some "IDE interface") (Some "ISA Compatibility mode controller, supports both channels switched to PCI native mode");
    row (Some 1) (Some 1) (Some 15) "Mass storage controller" (Some "IDE interface") (Some "PCI native mode controller, supports both channels switched to ISA compatibility mode");
    row (Some 1) (Some 1) (Some 128) "Mass storage controller" (Some "IDE interface") (Some "ISA Compatibility mode-only controller, supports bus mastering");
    row (Some 1) (Some 1) (Some 133) "Mass storage controller" (Some "IDE interface") (Some "PCI native mode-only controller, supports bus mastering");
    row (Some 1) (Some 1) (Some 138) "Mass storage controller" (Some "IDE interface") (Some "ISA Compatibility mode controller, supports both channels switched to PCI native mode, supports bus mastering");
    row (Some 1) (Some 1) (Some 143) "Mass storage controller" (Some "IDE interface") (Some "PCI native mode controller, supports both channels switched to ISA compatibility mode, supports bus mastering");
    row (Some 1) (Some 1) (None) "Mass storage controller" (Some "IDE interface") (None);
    row (Some 1) (Some 2) (None) "Mass storage controller" (Some "Floppy disk controller") (None);
    row (Some 1) (Some 3) (None) "Mass storage controller" (Some "IPI bus controller") (None);
    row (Some 1) (Some 4) (None) "Mass storage controller" (Some "RAID bus controller") (None);
    row (Some 1) (Some 5) (Some 32) "Mass storage controller" (Some "ATA controller") (Some "ADMA single stepping");
    row (Some 1) (Some 5) (Some 48) "Mass storage controller" (Some "ATA controller") (Some "ADMA continuous operation");
    row (Some 1) (Some 5) (None) "Mass storage controller" (Some "ATA controller") (None);
    row (Some 1) (Some 6) (Some 0) "Mass storage controller" (Some "SATA controller") (Some "Vendor specific");
    row (Some 1) (Some 6) (Some 1) "Mass storage controller" (Some "SATA controller") (Some "AHCI 1.0");
    row (Some 1) (Some 6) (Some 2) "Mass storage controller" (Some "SATA controller") (Some "Serial Storage Bus");
    row (Some 1) (Some 6) (None) "Mass storage controller" (Some "SATA controller") (None);
    row (Some 1) (Some 7) (Some 1) "Mass storage controller" (Some "Serial Attached SCSI controller") (Some "Serial Storage Bus");
    row (Some 1) (Some 7) (None) "Mass storage controller" (Some "Serial Attached SCSI controller") (None);
    row (Some 1) (Some 8) (Some 1) "Mass storage controller" (Some "Non-Volatile memory controller") (Some "NVMHCI");
    row (Some 1) (Some 8) (Some 2) "Mass storage controller" (Some "Non-Volatile memory controller") (Some "NVM Express");
    row (Some 1) (Some 8) (None) "Mass storage controller" (Some "Non-Volatile memory controller") (None);
    row (Some 1) (Some 128) (None) "Mass storage controller" (Some "Mass storage controller") (None);
    row (Some 1) (None) (None) "Mass storage controller" (None) (None);
    row (Some 2) (Some 0) (None) "Network controller" (Some "Ethernet controller") (None);
    row (Some 2) (Some 1) (None) "Network controller" (Some "Token ring network controller") (None);
    row (Some 2) (Some 2) (None) "Network controller" (Some "FDDI network controller") (None);
    row (Some 2) (Some 3) (None) "Network controller" (Some "ATM network controller") (None);
    row (Some 2) (Some 4) (None) "Network controller" (Some "ISDN controller") (None);
    row (Some 2) (Some 5) (None) "Network controller" (Some "WorldFip controller") (None);
    row (Some 2) (Some 6) (None) "Network controller" (Some "PICMG controller") (None);
    row (Some 2) (Some 7) (None) "Network controller" (Some "Infiniband controller") (None);
    row (Some 2) (Some 8) (None) "Network controller" (Some "Fabric controller") (None);
    row (Some 2) (Some 128) (None) "Network controller" (Some "Network controller") (None);
    row (Some 2) (None) (None) "Network controller" (None) (None);
    row (Some 3) (Some 0) (Some 0) "Display controller" (Some "VGA compatible controller") (Some "VGA controller");
    row (Some 3) (Some 0) (Some 1) "Display controller" (Some "VGA compatible controller") (Some "8514 controller");
    row (Some 3) (Some 0) (None) "Display controller" (Some "VGA compatible controller") (None);
    row (Some 3) (Some 1) (None) "Display controller" (Some "XGA compatible controller") (None);
    row (Some 3) (Some 2) (None) "Display controller" (Some "3D controller") (None);
    row (Some 3) (Some 128) (None) "Display controller" (Some "Display controller") (None);
    row (Some 3) (None) (None) "Display controller" (None) (None);
    row (Some 4) (Some 0) (None) "Multimedia controller" (Some "Multimedia video controller") (None);
    row (Some 4) (Some 1) (None) "Multimedia controller" (Some "Multimedia audio controller") (None);
    row (Some 4) (Some 2) (None) "Multimedia controller" (Some "Computer telephony device") (None);
    row (Some 4) (Some 3) (None) "Multimedia controller" (Some "Audio device") (None);
    row (Some 4) (Some 128) (None) "Multimedia controller" (Some "Multimedia controller") (None);
    row (Some 4) (None) (None) "Multimedia controller" (None) (None);
    row (Some 5) (Some 0) (None) "Memory controller" (Some "RAM memory") (None);
    row (Some 5) (Some 1) (None) "Memory controller" (Some "FLASH memory") (None);
    row (Some 5) (Some 128) (None) "Memory controller" (Some "Memory controller") (None);
    row (Some 5) (None) (None) "Memory controller" (None) (None);
    row (Some 6) (Some 0) (None) "Bridge" (Some "Host bridge") (None);
    row (Some 6) (Some 1) (None) "Bridge" (Some "ISA bridge") (None);
    row (Some 6) (Some 2) (None) "Bridge" (Some "EISA bridge") (None);
    row (Some 6) (Some 3) (None) "Bridge" (Some "MicroChannel bridge") (None);
    row (Some 6) (Some 4) (Some 0) "Bridge" (Some "PCI bridge") (Some "Normal decode");
    row (Some 6) (Some 4) (Some 1) "Bridge" (Some "PCI bridge") (Some "Subtractive decode");
    row (Some 6) (Some 4) (None) "Bridge" (Some "PCI bridge") (None);
    row (Some 6) (Some 5) (None) "Bridge" (Some "PCMCIA bridge") (None);
    row (Some 6) (Some 6) (None) "Bridge" (Some "NuBus bridge") (None);
    row (Some 6) (Some 7) (None) "Bridge" (Some "CardBus bridge") (None);
    row (Some 6) (Some 8) (Some 0) "Bridge" (Some "RACEway bridge") (Some "Transparent mode");
    row (Some 6) (Some 8) (Some 1) "Bridge" (Some "RACEway bridge") (Some "Endpoint mode");
    row (Some 6) (Some 8) (None) "Bridge" (Some "RACEway bridge") (None);
    row (Some 6) (Some 9) (Some 64) "Bridge" (Some "Semi-transparent PCI-to-PCI bridge") (Some "Primary bus towards host CPU");
    row (Some 6) (Some 9) (Some 128) "Bridge" (Some "Semi-transparent PCI-to-PCI bridge") (Some "Secondary bus towards host CPU");
    row (Some 6) (Some 9) (None) "Bridge" (Some "Semi-transparent PCI-to-PCI bridge") (None);
    row (Some 6) (Some 10) (None) "Bridge" (Some "InfiniBand to PCI host bridge") (None);
    row (Some 6) (Some 128) (None) "Bridge" (Some "Bridge") (None);
    row (Some 6) (None) (None) "Bridge" (None) (None);
    row (Some 7) (Some 0) (Some 0) "Communication controller" (Some "Serial controller") (Some "8250");
    row (Some 7) (Some 0) (Some 1) "Communication controller" (Some "Serial controller") (Some "16450");
    row (Some 7) (Some 0) (Some 2) "Communication controller" (Some "Serial controller") (Some "16550");
    row (Some 7) (Some 0) (Some 3) "Communication controller" (Some "Serial controller") (Some "16650");
    row (Some 7) (Some 0) (Some 4) "Communication controller" (Some "Serial controller") (Some "16750");
    row (Some 7) (Some 0) (Some 5) "Communication controller" (Some "Serial controller") (Some "16850");
    row (Some 7) (Some 0) (Some 6) "Communication controller" (Some "Serial controller") (Some "16950");
    row (Some 7) (Some 0) (None) "Communication controller" (Some "Serial controller") (None);
    row (Some 7) (Some 1) (Some 0) "Communication controller" (Some "Parallel controller") (Some "SPP");
    row (Some 7) (Some 1) (Some 1) "Communication controller" (Some "Parallel controller") (Some "BiDir");
    row (Some 7) (Some 1) (Some 2) "Communication controller" (Some "Parallel controller") (Some "ECP");
    row (Some 7) (Some 1) (Some 3) "Communication controller" (Some "Parallel controller") (Some "IEEE1284");
    row (Some 7) (Some 1) (Some 254) "Communication controller" (Some "Parallel controller") (Some "IEEE1284 Target");
    row (Some 7) (Some 1) (None) "Communication controller" (Some "Parallel controller") (None);
    row (Some 7) (Some 2) (None) "Communication controller" (Some "Multiport serial controller") (None);
    row (Some 7) (Some 3) (Some 0) "Communication controller" (Some "Modem") (Some "Generic");
    row (Some 7) (Some 3) (Some 1) "Communication controller" (Some "Modem") (Some "Hayes/16450");
    row (Some 7) (Some 3) (Some 2) "Communication controller" (Some "Modem") (Some "Hayes/16550");
    row (Some 7) (Some 3) (Some 3) "Communication controller" (Some "Modem") (Some "Hayes/16650");
    row (Some 7) (Some 3) (Some 4) "Communication controller" (Some "Modem") (Some "Hayes/16750");
    row (Some 7) (Some 3) (None) "Communication controller" (Some "Modem") (None);
    row (Some 7) (Some 4) (None) "Communication controller" (Some "GPIB controller") (None);
    row (Some 7) (Some 5) (None) "Communication controller" (Some "Smard Card controller") (None);
    row (Some 7) (Some 128) (None) "Communication controller" (Some "Communication controller") (None);
    row (Some 7) (None) (None) "Communication controller" (None) (None);
    row (Some 8) (Some 0) (Some 0) "Generic system peripheral" (Some "PIC") (Some "8259");
    row (Some 8) (Some 0) (Some 1) "Generic system peripheral" (Some "PIC") (Some "ISA PIC");
    row (Some 8) (Some 0) (Some 2) "Generic system peripheral" (Some "PIC") (Some "EISA PIC");
    row (Some 8) (Some 0) (Some 16) "Generic system peripheral" (Some "PIC") (Some "IO-APIC");
    row (Some 8) (Some 0) (Some 32) "Generic system peripheral" (Some "PIC") (Some "IO(X)-APIC");
    row (Some 8) (Some 0) (None) "Generic system peripheral" (Some "PIC") (None);
    row (Some 8) (Some 1) (Some 0) "Generic system peripheral" (Some "DMA controller") (Some "8237");
    row (Some 8) (Some 1) (Some 1) "Generic system peripheral" (Some "DMA controller") (Some "ISA DMA");
    row (Some 8) (Some 1) (Some 2) "Generic system peripheral" (Some "DMA controller") (Some "EISA DMA");
    row (Some 8) (Some 1) (None) "Generic system peripheral" (Some "DMA controller") (None);
    row (Some 8) (Some 2) (Some 0) "Generic system peripheral" (Some "Timer") (Some "8254");
    row (Some 8) (Some 2) (Some 1) "Generic system peripheral" (Some "Timer") (Some "ISA Timer");
    row (Some 8) (Some 2) (Some 2) "Generic system peripheral" (Some "Timer") (Some "EISA Timers");
    row (Some 8) (Some 2) (Some 3) "Generic system peripheral" (Some "Timer") (Some "HPET");
    row (Some 8) (Some 2) (None) "Generic system peripheral" (Some "Timer") (None);
    row (Some 8) (Some 3) (Some 0) "Generic system peripheral" (Some "RTC") (Some "Generic");
    row (Some 8) (Some 3) (Some 1) "Generic system peripheral" (Some "RTC") (Some "ISA RTC");
    row (Some 8) (Some 3) (None) "Generic system peripheral" (Some "RTC") (None);
    row (Some 8) (Some 4) (None) "Generic system peripheral" (Some "PCI Hot-plug controller") (None);
    row (Some 8) (Some 5) (None) "Generic system peripheral" (Some "SD Host controller") (None);
    row (Some 8) (Some 6) (None) "Generic system peripheral" (Some "IOMMU") (None);
    row (Some 8) (Some 128) (None) "Generic system peripheral" (Some "System peripheral") (None);
    row (Some 8) (Some 153) (Some 1) "Generic system peripheral" (Some "Timing Card") (Some "TAP Timing Card");
    row (Some 8) (Some 153) (None) "Generic system peripheral" (Some "Timing Card") (None);
    row (Some 8) (None) (None) "Generic system peripheral" (None) (None);
    row (Some 9) (Some 0) (None) "Input device controller" (Some "Keyboard controller") (None);
    row (Some 9) (Some 1) (None) "Input device controller" (Some "Digitizer Pen") (None);
    row (Some 9) (Some 2) (None) "Input device controller" (Some "Mouse controller") (None);
    row (Some 9) (Some 3) (None) "Input device controller" (Some "Scanner controller") (None);
    row (Some 9) (Some 4) (Some 0) "Input device controller" (Some "Gameport controller") (Some "Generic");
    row (Some 9) (Some 4) (Some 1) "Input device controller" (Some "Gameport controller") (Some "Extended");
    row (Some 9) (Some 4) (None) "Input device controller" (Some "Gameport controller") (None);
    row (Some 9) (Some 128) (None) "Input device controller" (Some "Input device controller") (None);
    row (Some 9) (None) (None) "Input device controller" (None) (None);
    row (Some 10) (Some 0) (None) "Docking station" (Some "Generic Docking Station") (None);
    row (Some 10) (Some 128) (None) "Docking station" (Some "Docking Station") (None);
    row (Some 10) (None) (None) "Docking station" (None) (None);
    row (Some 11) (Some 0) (None) "Processor" (Some "386") (None);
    row (Some 11) (Some 1) (None) "Processor" (Some "486") (None);
    row (Some 11) (Some 2) (None) "Processor" (Some "Pentium") (None);
    row (Some 11) (Some 16) (None) "Processor" (Some "Alpha") (None);
    row (Some 11) (Some 32) (None) "Processor" (Some "Power PC") (None);
    row (Some 11) (Some 48) (None) "Processor" (Some "MIPS") (None);
    row (Some 11) (Some 64) (None) "Processor" (Some "Co-processor") (None);
    row (Some 11) (None) (None) "Processor" (None) (None);
    row (Some 12) (Some 0) (Some 0) "Serial bus controller" (Some "FireWire (IEEE 1394)") (Some "Generic");
    row (Some 12) (Some 0) (Some 16) "Serial bus controller" (Some "FireWire (IEEE 1394)") (Some "OHCI");
    row (Some 12) (Some 0) (None) "Serial bus controller" (Some "FireWire (IEEE 1394)") (None);
    row (Some 12) (Some 1) (None) "Serial bus controller" (Some "ACCESS Bus") (None);
    row (Some 12) (Some 2) (None) "Serial bus controller" (Some "SSA") (None);
    row (Some 12) (Some 3) (Some 0) "Serial bus controller" (Some "USB controller") (Some "UHCI");
    row (Some 12) (Some 3) (Some 16) "Serial bus controller" (Some "USB controller") (Some "OHCI");
    row (Some 12) (Some 3) (Some 32) "Serial bus controller" (Some "USB controller") (Some "EHCI");
    row (Some 12) (Some 3) (Some 48) "Serial bus controller" (Some "USB controller") (Some "XHCI");
    row (Some 12) (Some 3) (Some 64) "Serial bus controller" (Some "USB controller") (Some "USB4 Host Interface");
    row (Some 12) (Some 3) (Some 128) "Serial bus controller" (Some "USB controller") (Some "Unspecified");
    row (Some 12) (Some 3) (Some 254) "Serial bus controller" (Some "USB controller") (Some "USB Device");
    row (Some 12) (Some 3) (None) "Serial bus controller" (Some "USB controller") (None);
    row (Some 12) (Some 4) (None) "Serial bus controller" (Some "Fibre Channel") (None);
    row (Some 12) (Some 5) (None) "Serial bus controller" (Some "SMBus") (None);
    row (Some 12) (Some 6) (None) "Serial bus controller" (Some "InfiniBand") (None);
    row (Some 12) (Some 7) (Some 0) "Serial bus controller" (Some "IPMI Interface") (Some "SMIC");
    row (Some 12) (Some 7) (Some 1) "Serial bus controller" (Some "IPMI Interface") (Some "KCS");
    row (Some 12) (Some 7) (Some 2) "Serial bus controller" (Some "IPMI Interface") (Some "BT (Block Transfer)");
    row (Some 12) (Some 7) (None) "Serial bus controller" (Some "IPMI Interface") (None);
    row (Some 12) (Some 8) (None) "Serial bus controller" (Some "SERCOS interface") (None);
    row (Some 12) (Some 9) (None) "Serial bus controller" (Some "CANBUS") (None);
    row (Some 12) (None) (None) "Serial bus controller" (None) (None);
    row (Some 13) (Some 0) (None) "Wireless controller" (Some "IRDA controller") (None);
    row (Some 13) (Some 1) (None) "Wireless controller" (Some "Consumer IR controller") (None);
    row (Some 13) (Some 16) (None) "Wireless controller" (Some "RF controller") (None);
    row (Some 13) (Some 17) (None) "Wireless controller" (Some "Bluetooth") (None);
    row (Some 13) (Some 18) (None) "Wireless controller" (Some "Broadband") (None);
    row (Some 13) (Some 32) (None) "Wireless controller" (Some "802.1a controller") (None);
    row (Some 13) (Some 33) (None) "Wireless controller" (Some "802.1b controller") (None);
    row (Some 13) (Some 128) (None) "Wireless controller" (Some "Wireless controller") (None);
    row (Some 13) (None) (None) "Wireless controller" (None) (None);
    row (Some 14) (Some 0) (None) "Intelligent controller" (Some "I2O") (None);
    row (Some 14) (None) (None) "Intelligent controller" (None) (None);
    row (Some 15) (Some 1) (None) "Satellite communications controller" (Some "Satellite TV controller") (None);
    row (Some 15) (Some 2) (None) "Satellite communications controller" (Some "Satellite audio communication controller") (None);
    row (Some 15) (Some 3) (None) "Satellite communications controller" (Some "Satellite voice communication controller") (None);
    row (Some 15) (Some 4) (None) "Satellite communications controller" (Some "Satellite data communication controller") (None);
    row (Some 15) (None) (None) "Satellite communications controller" (None) (None);
    row (Some 16) (Some 0) (None) "Encryption controller" (Some "Network and computing encryption device") (None);
    row (Some 16) (Some 16) (None) "Encryption controller" (Some "Entertainment encryption device") (None);
    row (Some 16) (Some 128) (None) "Encryption controller" (Some "Encryption controller") (None);
    row (Some 16) (None) (None) "Encryption controller" (None) (None);
    row (Some 17) (Some 0) (None) "Signal processing controller" (Some "DPIO module") (None);
    row (Some 17) (Some 1) (None) "Signal processing controller" (Some "Performance counters") (None);
    row (Some 17) (Some 16) (None) "Signal processing controller" (Some "Communication synchronizer") (None);
    row (Some 17) (Some 32) (None) "Signal processing controller" (Some "Signal processing management") (None);
    row (Some 17) (Some 128) (None) "Signal processing controller" (Some "Signal processing controller") (None);
    row (Some 17) (None) (None) "Signal processing controller" (None) (None);
    row (Some 18) (Some 0) (None) "Processing accelerators" (Some "Processing accelerators") (None);
    row (Some 18) (Some 1) (None) "Processing accelerators" (Some "AI Inference Accelerator") (None);
    row (Some 18) (None) (None) "Processing accelerators" (None) (None);
    row (Some 19) (None) (None) "Non-Essential Instrumentation" (None) (None);
    row (Some 64) (None) (None) "Coprocessor" (None) (None);
    row (Some 255) (None) (None) "Unassigned class" (None) (None);
    row (None) (None) (None) "Reserved" (None) (None) ].

(* src/header/class_code.rs:27-235 *)
Definition meaning (c : ClassCode.t) : option names :=
  first_arm arms (ClassCode.base c) (ClassCode.sub c) (ClassCode.interface c).
