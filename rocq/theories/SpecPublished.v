(** SpecPublished.v - partition type GUIDs as their owners publish them (UEFI specification 5.3.3, Discoverable
    Partitions Specification, documentation of the operating systems), each as the 16 bytes found on disk.  The
    table was written down independently of the one in /repo/src/partition_types.rs; constants of the library
    whose published value was not at hand are left out. *)
From Verif Require Export Spec.
Open Scope list_scope.
Open Scope string_scope.

Definition published : list (string * os_label * list byte) :=
  [
    ("UNUSED", OsNone, [x00; x00; x00; x00; x00; x00; x00; x00; x00; x00; x00; x00; x00; x00; x00; x00]);
    ("MBR", OsNone, [x41; xee; x4d; x02; xe7; x33; xd3; x11; x9d; x69; x00; x08; xc7; x81; xf3; x9f]);
    ("EFI", OsNone, [x28; x73; x2a; xc1; x1f; xf8; xd2; x11; xba; x4b; x00; xa0; xc9; x3e; xc9; x3b]);
    ("BIOS", OsNone, [x48; x61; x68; x21; x49; x64; x6f; x6e; x74; x4e; x65; x65; x64; x45; x46; x49]);
    ("MICROSOFT_RESERVED", OsWindows, [x16; xe3; xc9; xe3; x5c; x0b; xb8; x4d; x81; x7d; xf9; x2d; xf0; x02; x15; xae]);
    ("BASIC", OsWindows, [xa2; xa0; xd0; xeb; xe5; xb9; x33; x44; x87; xc0; x68; xb6; xb7; x26; x99; xc7]);
    ("WINDOWS_METADATA", OsWindows, [xaa; xc8; x08; x58; x8f; x7e; xe0; x42; x85; xd2; xe1; xe9; x04; x34; xcf; xb3]);
    ("WINDOWS_DATA", OsWindows, [xa0; x60; x9b; xaf; x31; x14; x62; x4f; xbc; x68; x33; x11; x71; x4a; x69; xad]);
    ("WINDOWS_RECOVERY", OsWindows, [xa4; xbb; x94; xde; xd1; x06; x40; x4d; xa1; x6a; xbf; xd5; x01; x79; xd6; xac]);
    ("WINDOWS_STORAGESPACES", OsWindows, [x8f; xaf; x5c; xe7; x80; xf6; xee; x4c; xaf; xa3; xb0; x01; xe5; x6e; xfc; x2d]);
    ("LINUX_FS", OsLinux, [xaf; x3d; xc6; x0f; x83; x84; x72; x47; x8e; x79; x3d; x69; xd8; x47; x7d; xe4]);
    ("LINUX_RAID", OsLinux, [x0f; x88; x9d; xa1; xfc; x05; x3b; x4d; xa0; x06; x74; x3f; x0f; x84; x91; x1e]);
    ("LINUX_ROOT_X86", OsLinux, [x40; x95; x47; x44; x97; xf2; xb2; x41; x9a; xf7; xd1; x31; xd5; xf0; x45; x8a]);
    ("LINUX_ROOT_X64", OsLinux, [xe3; xbc; x68; x4f; xcd; xe8; xb1; x4d; x96; xe7; xfb; xca; xf9; x84; xb7; x09]);
    ("LINUX_ROOT_ARM_32", OsLinux, [x10; xd7; xda; x69; xe4; x2c; x3c; x4e; xb1; x6c; x21; xa1; xd4; x9a; xbe; xd3]);
    ("LINUX_ROOT_ARM_64", OsLinux, [x45; xb0; x21; xb9; xf0; x1d; xc3; x41; xaf; x44; x4c; x6f; x28; x0d; x3f; xae]);
    ("LINUX_SWAP", OsLinux, [x6d; xfd; x57; x06; xab; xa4; xc4; x43; x84; xe5; x09; x33; xc8; x4b; x4f; x4f]);
    ("LINUX_LVM", OsLinux, [x79; xd3; xd6; xe6; x07; xf5; xc2; x44; xa2; x3c; x23; x8f; x2a; x3d; xf9; x28]);
    ("LINUX_HOME", OsLinux, [xe1; xc7; x3a; x93; xb4; x2e; x13; x4f; xb8; x44; x0e; x14; xe2; xae; xf9; x15]);
    ("LINUX_SRV", OsLinux, [x25; x84; x8f; x3b; xe0; x20; x3b; x4f; x90; x7f; x1a; x25; xa7; x6f; x98; xe8]);
    ("LINUX_DMCRYPT", OsLinux, [xc9; xc5; xfe; x7f; x00; x2d; xb7; x49; x89; x41; x3e; xa1; x0a; x55; x86; xb7]);
    ("LINUX_LUKS", OsLinux, [xcb; x7c; x7d; xca; xed; x63; x53; x4c; x86; x1c; x17; x42; x53; x60; x59; xcc]);
    ("LINUX_RESERVED", OsLinux, [x39; x33; xa6; x8d; x07; x00; xc0; x60; xc4; x36; x08; x3a; xc8; x23; x09; x08]);
    ("FREEBSD_DATA", OsFreeBsd, [xb4; x7c; x6e; x51; xcf; x6e; xd6; x11; x8f; xf8; x00; x02; x2d; x09; x71; x2b]);
    ("FREEBSD_BOOT", OsFreeBsd, [x9d; x6b; xbd; x83; x41; x7f; xdc; x11; xbe; x0b; x00; x15; x60; xb8; x4f; x0f]);
    ("FREEBSD_SWAP", OsFreeBsd, [xb5; x7c; x6e; x51; xcf; x6e; xd6; x11; x8f; xf8; x00; x02; x2d; x09; x71; x2b]);
    ("FREEBSD_UFS", OsFreeBsd, [xb6; x7c; x6e; x51; xcf; x6e; xd6; x11; x8f; xf8; x00; x02; x2d; x09; x71; x2b]);
    ("FREEBSD_VINIUM", OsFreeBsd, [xb8; x7c; x6e; x51; xcf; x6e; xd6; x11; x8f; xf8; x00; x02; x2d; x09; x71; x2b]);
    ("FREEBSD_ZFS", OsFreeBsd, [xba; x7c; x6e; x51; xcf; x6e; xd6; x11; x8f; xf8; x00; x02; x2d; x09; x71; x2b]);
    ("MACOS_HFSPLUS", OsMacOs, [x00; x53; x46; x48; x00; x00; xaa; x11; xaa; x11; x00; x30; x65; x43; xec; xac]);
    ("MACOS_UFS", OsMacOs, [x00; x53; x46; x55; x00; x00; xaa; x11; xaa; x11; x00; x30; x65; x43; xec; xac]);
    ("MACOS_ZFS", OsMacOs, [xc3; x8c; x89; x6a; xd2; x1d; xb2; x11; x99; xa6; x08; x00; x20; x73; x66; x31]);
    ("MACOS_RAID", OsMacOs, [x44; x49; x41; x52; x00; x00; xaa; x11; xaa; x11; x00; x30; x65; x43; xec; xac]);
    ("MACOS_RAID_OFFLINE", OsMacOs, [x44; x49; x41; x52; x4f; x5f; xaa; x11; xaa; x11; x00; x30; x65; x43; xec; xac]);
    ("MACOS_RECOVERY", OsMacOs, [x74; x6f; x6f; x42; x00; x00; xaa; x11; xaa; x11; x00; x30; x65; x43; xec; xac]);
    ("MACOS_LABEL", OsMacOs, [x65; x62; x61; x4c; x00; x6c; xaa; x11; xaa; x11; x00; x30; x65; x43; xec; xac]);
    ("MACOS_TV_RECOVERY", OsMacOs, [x6f; x63; x65; x52; x65; x76; xaa; x11; xaa; x11; x00; x30; x65; x43; xec; xac]);
    ("MACOS_CORE", OsMacOs, [x72; x6f; x74; x53; x67; x61; xaa; x11; xaa; x11; x00; x30; x65; x43; xec; xac]);
    ("MACOS_APFS", OsMacOs, [xef; x57; x34; x7c; x00; x00; xaa; x11; xaa; x11; x00; x30; x65; x43; xec; xac]);
    ("SOLARIS_BOOT", OsSolaris, [x45; xcb; x82; x6a; xd2; x1d; xb2; x11; x99; xa6; x08; x00; x20; x73; x66; x31]);
    ("SOLARIS_ROOT", OsSolaris, [x4d; xcf; x85; x6a; xd2; x1d; xb2; x11; x99; xa6; x08; x00; x20; x73; x66; x31]);
    ("SOLARIS_SWAP", OsSolaris, [x6f; xc4; x87; x6a; xd2; x1d; xb2; x11; x99; xa6; x08; x00; x20; x73; x66; x31]);
    ("NETBSD_SWAP", OsNetBsd, [x32; x8d; xf4; x49; x0e; xb1; xdc; x11; xb9; x9b; x00; x19; xd1; x87; x96; x48]);
    ("NETBSD_FFS", OsNetBsd, [x5a; x8d; xf4; x49; x0e; xb1; xdc; x11; xb9; x9b; x00; x19; xd1; x87; x96; x48]);
    ("NETBSD_LFS", OsNetBsd, [x82; x8d; xf4; x49; x0e; xb1; xdc; x11; xb9; x9b; x00; x19; xd1; x87; x96; x48]);
    ("NETBSD_RAID", OsNetBsd, [xaa; x8d; xf4; x49; x0e; xb1; xdc; x11; xb9; x9b; x00; x19; xd1; x87; x96; x48]);
    ("NETBSD_CONCAT", OsNetBsd, [xc4; x19; xb5; x2d; x0f; xb1; xdc; x11; xb9; x9b; x00; x19; xd1; x87; x96; x48]);
    ("NETBSD_ENCRYPTED", OsNetBsd, [xec; x19; xb5; x2d; x0f; xb1; xdc; x11; xb9; x9b; x00; x19; xd1; x87; x96; x48]);
    ("CHROME_KERNEL", OsChrome, [x5d; x2a; x3a; xfe; x32; x4f; xa7; x41; xb7; x25; xac; xcc; x32; x85; xa3; x09]);
    ("CHROME_ROOTFS", OsChrome, [x02; xe2; xb8; x3c; x7e; x3b; xdd; x47; x8a; x3c; x7f; xf2; xa1; x3c; xfc; xec]);
    ("CHROME_FUTURE", OsChrome, [x3d; x75; x0a; x2e; x48; x9e; xb0; x43; x83; x37; xb1; x51; x92; xcb; x1b; x5e]);
    ("HAIKU_BFS", OsHaiku, [x31; x53; x46; x42; xa3; x3b; xf1; x10; x80; x2a; x48; x61; x69; x6b; x75; x21]);
    ("OPENBSD_DATA", OsOpenBsd, [xa0; xc7; x4c; x82; xa8; x36; xe3; x11; x89; x0a; x95; x25; x19; xad; x3f; x61]);
    ("QNX_FS", OsQNX, [xad; xa9; xf5; xce; xbc; x73; x01; x46; x89; xf3; xcd; xee; xee; xe3; x21; xa1]);
    ("PLAN9_PART", OsPlan9, [xf9; x18; x18; xc9; x25; x80; xaf; x47; x89; xd2; xf0; x30; xd7; x00; x0c; x2c]);
    ("VMWARE_COREDUMP", OsVmWare, [x80; x53; x27; x9d; xad; x40; xdb; x11; xbf; x97; x00; x0c; x29; x11; xd1; xb8]);
    ("VMWARE_VMFS", OsVmWare, [x2a; xe0; x31; xaa; x0f; x40; xdb; x11; x95; x90; x00; x0c; x29; x11; xd1; xb8]);
    ("VMWARE_RESERVED", OsVmWare, [xfc; xef; x98; x91; xc0; x31; xdb; x11; x8f; x78; x00; x0c; x29; x11; xd1; xb8]);
    ("PPC_BOOT", OsPowerPc, [x38; x2d; x1a; x9e; x12; xc6; x16; x43; xaa; x26; x8b; x49; x52; x1e; x5a; x8b]);
    ("FREEDESK_BOOT", OsFreeDesktop, [xff; xc2; x13; xbc; xe6; x59; x62; x42; xa3; x52; xb2; x75; xfd; x6f; x71; x72])
  ].
