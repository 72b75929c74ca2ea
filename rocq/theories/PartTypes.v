(** PartTypes.v - src/partition_types.rs and the [partition_types!] macro (src/macros.rs). *)
From Verif Require Export Uuid.
Open Scope string_scope.

(** [OperatingSystem] (src/partition_types.rs:14-65). *)
Inductive os_label : Type :=
| OsNone
| OsAndroid
| OsAtari
| OsCeph
| OsChrome
| OsCoreOs
| OsCustom (s : string)
| OsFreeBsd
| OsFreeDesktop
| OsHaiku
| OsHpUnix
| OsLinux
| OsMidnightBsd
| OsMacOs
| OsNetBsd
| OsOnie
| OsOpenBsd
| OsPlan9
| OsPowerPc
| OsSolaris
| OsVmWare
| OsWindows
| OsQNX
| OsDragonFlyBsd.

(** [Type] (src/partition_types.rs:5-12). *)
Record ptype := mkType { guid : uuid; os : os_label }.

(** The [partition_types!] invocation (src/partition_types.rs:106-333): constant name, GUID
    literal, OS.  Extracted mechanically from the source, in source order. *)
Definition type_table : list (string * string * os_label) :=
  [ ("UNUSED", "00000000-0000-0000-0000-000000000000", OsNone);
    ("MBR", "024DEE41-33E7-11D3-9D69-0008C781F39F", OsNone);
    ("EFI", "C12A7328-F81F-11D2-BA4B-00A0C93EC93B", OsNone);
    ("BIOS", "21686148-6449-6E6F-744E-656564454649", OsNone);
    ("FLASH", "D3BFE2DE-3DAF-11DF-BA40-E3A556D89593", OsNone);
    ("SONY_BOOT", "F4019732-066E-4E12-8273-346C5641494F", OsNone);
    ("LENOVO_BOOT", "BFBFAFE7-A34F-448A-9A5B-6213EB736C22", OsNone);
    ("MICROSOFT_RESERVED", "E3C9E316-0B5C-4DB8-817D-F92DF00215AE", OsWindows);
    ("BASIC", "EBD0A0A2-B9E5-4433-87C0-68B6B72699C7", OsWindows);
    ("WINDOWS_METADATA", "5808C8AA-7E8F-42E0-85D2-E1E90434CFB3", OsWindows);
    ("WINDOWS_DATA", "AF9B60A0-1431-4F62-BC68-3311714A69AD", OsWindows);
    ("WINDOWS_RECOVERY", "DE94BBA4-06D1-4D40-A16A-BFD50179D6AC", OsWindows);
    ("WINDOWS_PARALLEL", "37AFFC90-EF7D-4E96-91C3-2D7AE055B174", OsWindows);
    ("WINDOWS_STORAGESPACES", "E75CAF8F-F680-4CEE-AFA3-B001E56EFC2D", OsWindows);
    ("HPUNIX_DATA", "75894C1E-3AEB-11D3-B7C1-7B03A0000000", OsHpUnix);
    ("HPUNIX_SERVICE", "E2A1E728-32E3-11D6-A682-7B03A0000000", OsHpUnix);
    ("LINUX_FS", "0FC63DAF-8483-4772-8E79-3D69D8477DE4", OsLinux);
    ("LINUX_RAID", "A19D880F-05FC-4D3B-A006-743F0F84911E", OsLinux);
    ("LINUX_ROOT_X86", "44479540-F297-41B2-9AF7-D131D5F0458A", OsLinux);
    ("LINUX_ROOT_X64", "4F68BCE3-E8CD-4DB1-96E7-FBCAF984B709", OsLinux);
    ("LINUX_ROOT_ARM_32", "69DAD710-2CE4-4E3C-B16C-21A1D49ABED3", OsLinux);
    ("LINUX_ROOT_ARM_64", "B921B045-1DF0-41C3-AF44-4C6F280D3FAE", OsLinux);
    ("LINUX_SWAP", "0657FD6D-A4AB-43C4-84E5-0933C84B4F4F", OsLinux);
    ("LINUX_LVM", "E6D6D379-F507-44C2-A23C-238F2A3DF928", OsLinux);
    ("LINUX_HOME", "933AC7E1-2EB4-4F13-B844-0E14E2AEF915", OsLinux);
    ("LINUX_SRV", "3B8F8425-20E0-4F3B-907F-1A25A76F98E8", OsLinux);
    ("LINUX_DMCRYPT", "7FFEC5C9-2D00-49B7-8941-3EA10A5586B7", OsLinux);
    ("LINUX_LUKS", "CA7D7CCB-63ED-4C53-861C-1742536059CC", OsLinux);
    ("LINUX_RESERVED", "8DA63339-0007-60C0-C436-083AC8230908", OsLinux);
    ("FREEBSD_DATA", "516E7CB4-6ECF-11D6-8FF8-00022D09712B", OsFreeBsd);
    ("FREEBSD_BOOT", "83BD6B9D-7F41-11DC-BE0B-001560B84F0F", OsFreeBsd);
    ("FREEBSD_SWAP", "516E7CB5-6ECF-11D6-8FF8-00022D09712B", OsFreeBsd);
    ("FREEBSD_UFS", "516E7CB6-6ECF-11D6-8FF8-00022D09712B", OsFreeBsd);
    ("FREEBSD_VINIUM", "516E7CB8-6ECF-11D6-8FF8-00022D09712B", OsFreeBsd);
    ("FREEBSD_ZFS", "516E7CBA-6ECF-11D6-8FF8-00022D09712B", OsFreeBsd);
    ("DRAGONFLY_DATA", "3D48CE54-1D16-11DC-8696-01301BB8A9F5", OsDragonFlyBsd);
    ("MACOS_HFSPLUS", "48465300-0000-11AA-AA11-00306543ECAC", OsMacOs);
    ("MACOS_UFS", "55465300-0000-11AA-AA11-00306543ECAC", OsMacOs);
    ("MACOS_ZFS", "6A898CC3-1DD2-11B2-99A6-080020736631", OsMacOs);
    ("MACOS_RAID", "52414944-0000-11AA-AA11-00306543ECAC", OsMacOs);
    ("MACOS_RAID_OFFLINE", "52414944-5F4F-11AA-AA11-00306543ECAC", OsMacOs);
    ("MACOS_RECOVERY", "426F6F74-0000-11AA-AA11-00306543ECAC", OsMacOs);
    ("MACOS_LABEL", "4C616265-6C00-11AA-AA11-00306543ECAC", OsMacOs);
    ("MACOS_TV_RECOVERY", "5265636F-7665-11AA-AA11-00306543ECAC", OsMacOs);
    ("MACOS_CORE", "53746F72-6167-11AA-AA11-00306543ECAC", OsMacOs);
    ("MACOS_SOFTRAID_STATUS", "B6FA30DA-92D2-4A9A-96F1-871EC6486200", OsMacOs);
    ("MACOS_SOFTRAID_SCRATCH", "2E313465-19B9-463F-8126-8A7993773801", OsMacOs);
    ("MACOS_SOFTRAID_VOLUME", "FA709C7E-65B1-4593-BFD5-E71D61DE9B02", OsMacOs);
    ("MACOS_SOFTRAID_CACHE", "BBBA6DF5-F46F-4A89-8F59-8765B2727503", OsMacOs);
    ("MACOS_APFS", "7C3457EF-0000-11AA-AA11-00306543ECAC", OsMacOs);
    ("SOLARIS_BOOT", "6A82CB45-1DD2-11B2-99A6-080020736631", OsSolaris);
    ("SOLARIS_ROOT", "6A85CF4D-1DD2-11B2-99A6-080020736631", OsSolaris);
    ("SOLARIS_SWAP", "6A87C46F-1DD2-11B2-99A6-080020736631", OsSolaris);
    ("SOLARIS_BACKUP", "6A8B642B-1DD2-11B2-99A6-080020736631", OsSolaris);
    ("SOLARIS_VAR", "6A8EF2E9-1DD2-11B2-99A6-080020736631", OsSolaris);
    ("SOLARIS_HOME", "6A90BA39-1DD2-11B2-99A6-080020736631", OsSolaris);
    ("SOLARIS_ALT", "6A9283A5-1DD2-11B2-99A6-080020736631", OsSolaris);
    ("SOLARIS_RESERVED1", "6A945A3B-1DD2-11B2-99A6-080020736631", OsSolaris);
    ("SOLARIS_RESERVED2", "6A9630D1-1DD2-11B2-99A6-080020736631", OsSolaris);
    ("SOLARIS_RESERVED3", "6A980767-1DD2-11B2-99A6-080020736631", OsSolaris);
    ("SOLARIS_RESERVED4", "6A96237F-1DD2-11B2-99A6-080020736631", OsSolaris);
    ("SOLARIS_RESERVED5", "6A8D2AC7-1DD2-11B2-99A6-080020736631", OsSolaris);
    ("NETBSD_SWAP", "49F48D32-B10E-11DC-B99B-0019D1879648", OsNetBsd);
    ("NETBSD_FFS", "49F48D5A-B10E-11DC-B99B-0019D1879648", OsNetBsd);
    ("NETBSD_LFS", "49F48D82-B10E-11DC-B99B-0019D1879648", OsNetBsd);
    ("NETBSD_RAID", "49F48DAA-B10E-11DC-B99B-0019D1879648", OsNetBsd);
    ("NETBSD_CONCAT", "2DB519C4-B10F-11DC-B99B-0019D1879648", OsNetBsd);
    ("NETBSD_ENCRYPTED", "2DB519EC-B10F-11DC-B99B-0019D1879648", OsNetBsd);
    ("CHROME_KERNEL", "FE3A2A5D-4F32-41A7-B725-ACCC3285A309", OsChrome);
    ("CHROME_ROOTFS", "3CB8E202-3B7E-47DD-8A3C-7FF2A13CFCEC", OsChrome);
    ("CHROME_FUTURE", "2E0A753D-9E48-43B0-8337-B15192CB1B5E", OsChrome);
    ("CHROME_RWFW", "CAB6E88E-ABF3-4102-A07A-D4BB9BE3C1D3", OsChrome);
    ("COREOS_USR", "5DFBF5F4-2848-4BAC-AA5E-0D9A20B745A6", OsCoreOs);
    ("COREOS_ROOTFS_RESIZE", "3884DD41-8582-4404-B9A8-E9B84F2DF50E", OsCoreOs);
    ("COREOS_OEM", "C95DC21A-DF0E-4340-8D7B-26CBFA9A03E0", OsCoreOs);
    ("COREOS_ROOT_RAID", "BE9067B9-EA49-4F15-B4F6-F36F8C9E1818", OsCoreOs);
    ("HAIKU_BFS", "42465331-3BA3-10F1-802A-4861696B7521", OsHaiku);
    ("MIDNIGHT_BOOT", "85D5E45E-237C-11E1-B4B3-E89A8F7FC3A7", OsMidnightBsd);
    ("MIDNIGHT_DATA", "85D5E45A-237C-11E1-B4B3-E89A8F7FC3A7", OsMidnightBsd);
    ("MIDNIGHT_SWAP", "85D5E45B-237C-11E1-B4B3-E89A8F7FC3A7", OsMidnightBsd);
    ("MIDNIGHT_UFS", "0394EF8B-237E-11E1-B4B3-E89A8F7FC3A7", OsMidnightBsd);
    ("MIDNIGHT_VINIUM", "85D5E45C-237C-11E1-B4B3-E89A8F7FC3A7", OsMidnightBsd);
    ("MIDNIGHT_ZFS", "85D5E45D-237C-11E1-B4B3-E89A8F7FC3A7", OsMidnightBsd);
    ("CEPH_JOURNAL", "45B0969E-9B03-4F30-B4C6-B4B80CEFF106", OsCeph);
    ("CEPH_CRYPT_JOURNAL", "45B0969E-9B03-4F30-B4C6-5EC00CEFF106", OsCeph);
    ("CEPH_OSD", "4FBD7E29-9D25-41B8-AFD0-062C0CEFF05D", OsCeph);
    ("CEPH_CRYPT", "4FBD7E29-9D25-41B8-AFD0-5EC00CEFF05D", OsCeph);
    ("CEPH_DISK_CREATION", "89C57F98-2FE5-4DC0-89C1-F3AD0CEFF2BE", OsCeph);
    ("CEPH_CRYPT_CREATION", "89C57F98-2FE5-4DC0-89C1-5EC00CEFF2BE", OsCeph);
    ("OPENBSD_DATA", "824CC7A0-36A8-11E3-890A-952519AD3F61", OsOpenBsd);
    ("QNX_FS", "CEF5A9AD-73BC-4601-89F3-CDEEEEE321A1", OsQNX);
    ("PLAN9_PART", "C91818F9-8025-47AF-89D2-F030D7000C2C", OsPlan9);
    ("VMWARE_COREDUMP", "9D275380-40AD-11DB-BF97-000C2911D1B8", OsVmWare);
    ("VMWARE_VMFS", "AA31E02A-400F-11DB-9590-000C2911D1B8", OsVmWare);
    ("VMWARE_RESERVED", "9198EFFC-31C0-11DB-8F78-000C2911D1B8", OsVmWare);
    ("ANDROID_BOOTLOADER", "2568845D-2332-4675-BC39-8FA5A4748D15", OsAndroid);
    ("ANDROID_BOOTLOADER2", "114EAFFE-1552-4022-B26E-9B053604CF84", OsAndroid);
    ("ANDROID_BOOT", "49A4D17F-93A3-45C1-A0DE-F50B2EBE2599", OsAndroid);
    ("ANDROID_RECOVERY", "4177C722-9E92-4AAB-8644-43502BFD5506", OsAndroid);
    ("ANDROID_MISC", "EF32A33B-A409-486C-9141-9FFB711F6266", OsAndroid);
    ("ANDROID_META", "20AC26BE-20B7-11E3-84C5-6CFDB94711E9", OsAndroid);
    ("ANDROID_SYSTEM", "38F428E6-D326-425D-9140-6E0EA133647C", OsAndroid);
    ("ANDROID_CACHE", "A893EF21-E428-470A-9E55-0668FD91A2D9", OsAndroid);
    ("ANDROID_DATA", "DC76DDA9-5AC1-491C-AF42-A82591580C0D", OsAndroid);
    ("ANDROID_PERSISTENT", "EBC597D0-2053-4B15-8B64-E0AAC75F4DB1", OsAndroid);
    ("ANDROID_FACTORY", "8F68CC74-C5E5-48DA-BE91-A0C8C15E9C80", OsAndroid);
    ("ANDROID_FASTBOOT", "767941D0-2085-11E3-AD3B-6CFDB94711E9", OsAndroid);
    ("ANDROID_OEM", "AC6D7924-EB71-4DF8-B48D-E267B27148FF", OsAndroid);
    ("ONIE_BOOT", "7412F7D5-A156-4B13-81DC-867174929325", OsOnie);
    ("ONIE_CONFIG", "D4E6E2CD-4469-46F3-B5CB-1BFF57AFC149", OsOnie);
    ("PPC_BOOT", "9E1A2D38-C612-4316-AA26-8B49521E5A8B", OsPowerPc);
    ("FREEDESK_BOOT", "BC13C2FF-59E6-4262-A352-B275FD6F7172", OsFreeDesktop);
    ("ATARI_DATA", "734E5AFE-F61A-11E6-BC64-92361F002671", OsAtari) ].

(** [str_to_uuid_or_panic] (src/macros.rs:12-20) runs at compile time; a literal that does not
    parse would be a compile error, shown absent in the proofs. *)
Definition lit_uuid (s : string) : uuid :=
  match uuid_try_parse s with Some u => u | None => [] end.
Definition entry_type (e : string * string * os_label) : ptype :=
  match e with (_, g, o) => mkType (lit_uuid g) o end.

(** The constants (src/macros.rs:21-27). *)
Definition UNUSED : ptype := mkType (lit_uuid "00000000-0000-0000-0000-000000000000") OsNone.
Definition BASIC : ptype := mkType (lit_uuid "EBD0A0A2-B9E5-4433-87C0-68B6B72699C7") OsWindows.
Definition LINUX_FS : ptype := mkType (lit_uuid "0FC63DAF-8483-4772-8E79-3D69D8477DE4") OsLinux.

(** [u8::to_ascii_uppercase] on every byte: [str::to_ascii_uppercase]. *)
Definition upper_ascii (a : Ascii.ascii) : Ascii.ascii :=
  let n := Ascii.N_of_ascii a in
  if ((97 <=? n) && (n <=? 122))%N then Ascii.ascii_of_N (n - 32) else a.
Fixpoint upper (s : string) : string :=
  match s with
  | EmptyString => EmptyString
  | String a r => String (upper_ascii a) (upper r)
  end.

(** The literal arms of [FromStr for Type] (src/macros.rs:32-36): first arm whose GUID literal or
    constant name equals the upper-cased input. *)
Fixpoint find_by_str (t : list (string * string * os_label)) (u : string) : option ptype :=
  match t with
  | [] => None
  | (n, g, o) :: r =>
      if String.eqb u g || String.eqb u n then Some (mkType (lit_uuid g) o)
      else find_by_str r u
  end.

(** [FromStr for Type] (src/macros.rs:29-48); [Type::from_name] (src/partition_types.rs:95-97)
    is the same function. *)
Definition type_from_str (s : string) : outcome string ptype :=
  match find_by_str type_table (upper s) with
  | Some t => Ok t
  | None =>
      match uuid_try_parse s with
      | Some u => Ok (mkType u OsNone)
      | None => Err "Invalid Partition Type GUID."
      end
  end.

(** [From<Uuid> for Type] (src/macros.rs:49-61). *)
Fixpoint find_by_uuid (t : list (string * string * os_label)) (u : uuid) : option ptype :=
  match t with
  | [] => None
  | (_, g, o) :: r =>
      if uuid_eqb u (lit_uuid g) then Some (mkType (lit_uuid g) o) else find_by_uuid r u
  end.
Definition type_from_uuid (u : uuid) : ptype :=
  match find_by_uuid type_table u with Some t => t | None => mkType u OsNone end.

(** [FromStr for OperatingSystem] (src/partition_types.rs:67-91). *)
Definition os_table : list (string * os_label) :=
  [ ("unused", OsNone);
    ("android", OsAndroid);
    ("atari", OsAtari);
    ("Ceph", OsCeph);
    ("Chrome", OsChrome);
    ("DragonFlyBsd", OsDragonFlyBsd);
    ("FreeBsd", OsFreeBsd);
    ("FreeDesktop", OsFreeDesktop);
    ("Haiku", OsHaiku);
    ("HP-UX", OsHpUnix);
    ("Linux", OsLinux);
    ("MacOS", OsMacOs);
    ("MidnightBsd", OsMidnightBsd);
    ("Onie", OsOnie);
    ("PowerPc", OsPowerPc);
    ("Solaris Illumos", OsSolaris) ].
Fixpoint find_os (t : list (string * os_label)) (s : string) : option os_label :=
  match t with
  | [] => None
  | (n, o) :: r => if String.eqb s n then Some o else find_os r s
  end.
Definition os_from_str (s : string) : outcome string os_label :=
  match find_os os_table s with
  | Some o => Ok o
  | None => Err ("Unknown operating system: " ++ s)
  end.
