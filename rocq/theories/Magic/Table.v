(** The signature table: /repo/fileid/magic.h, the arrays magic_* (lines 8-159) and the
    entries of initList (lines 163-315).  Generated from that file by
    tools/gen_magic.py; one entry per source line, in source order. *)
From Coq Require Import List NArith Strings.String.
From Verif Require Import Lib.Bytes.
Import ListNotations.
Local Open Scope N_scope.

(** The content parsers referenced by the table (the function pointer column). *)
Inductive parser : Type :=
| PExec | PMachO | PZip | POless | PDwg | PWordPerfect | PMp4 | PAsf | PRiff | PJpeg.

(** common.hpp:634-657: struct MagicInfo *)
Record MagicInfo := mkMagic {
  mi_ext : bytes; mi_name : bytes; mi_version : bytes;
  mi_offset : N; mi_size : N; mi_magic : bytes; mi_func : option parser }.

Definition table : list MagicInfo := [
  (* magic.h:164 *) mkMagic (B "exe") (B "DOS Executable") (B "") 0 2 [x4d; x5a] (Some PExec);
  (* magic.h:165 *) mkMagic (B "elf") (B "ELF Executable") (B "") 0 4 [x7f; x45; x4c; x46] (None);
  (* magic.h:166 *) mkMagic (B "dex") (B "Dalvik Executable") (B "") 0 6 [x64; x65; x78; x0a; x30; x33] (None);
  (* magic.h:167 *) mkMagic (B "lib") (B "Microsoft Program Library Common Object File Format") (B "") 0 8 [x21; x3c; x61; x72; x63; x68; x3e; x0a] (None);
  (* magic.h:168 *) mkMagic (B "obj") (B "Microsoft Common Object File Format relocatable object code") (B "") 0 2 [x4c; x01] (None);
  (* magic.h:169 *) mkMagic (B "pdb") (B "Microsoft Program Database 2.0") (B "2") 0 39 [x4d; x69; x63; x72; x6f; x73; x6f; x66; x74; x20; x43; x2f; x43; x2b; x2b; x20; x70; x72; x6f; x67; x72; x61; x6d; x20; x64; x61; x74; x61; x62; x61; x73; x65; x20; x32; x2e; x30; x30; x0d; x0a] (None);
  (* magic.h:170 *) mkMagic (B "pdb") (B "Microsoft Program Database 7.0") (B "7") 0 29 [x4d; x69; x63; x72; x6f; x73; x6f; x66; x74; x20; x43; x2f; x43; x2b; x2b; x20; x4d; x53; x46; x20; x37; x2e; x30; x30; x0d; x0a; x1a; x44; x53] (None);
  (* magic.h:171 *) mkMagic (B "o") (B "Mach-O Executable") (B "32-bit, big-endian") 0 4 [xfe; xed; xfa; xce] (Some PMachO);
  (* magic.h:172 *) mkMagic (B "o") (B "Mach-O Executable") (B "32-bit, little-endian") 0 4 [xce; xfa; xed; xfe] (Some PMachO);
  (* magic.h:173 *) mkMagic (B "o") (B "Mach-O Executable") (B "64-bit, big-endian") 0 4 [xfe; xed; xfa; xcf] (Some PMachO);
  (* magic.h:174 *) mkMagic (B "o") (B "Mach-O Executable") (B "64-bit, little-endian") 0 4 [xcf; xfa; xed; xfe] (Some PMachO);
  (* magic.h:175 *) mkMagic (B "class") (B "Java Class File") (B "") 0 4 [xca; xfe; xba; xbe] (None);
  (* magic.h:176 *) mkMagic (B "zip") (B "Zip Archive") (B "") 0 2 [x50; x4b] (Some PZip);
  (* magic.h:177 *) mkMagic (B "rar") (B "Rar Archive") (B "") 0 6 [x52; x61; x72; x21; x1a; x07] (None);
  (* magic.h:178 *) mkMagic (B "7z") (B "7z Archive") (B "") 0 6 [x37; x7a; xbc; xaf; x27; x1c] (None);
  (* magic.h:179 *) mkMagic (B "tar.z") (B "Tar.Zip Container") (B "LZW Compression") 0 2 [x1f; x9d] (None);
  (* magic.h:180 *) mkMagic (B "tar.z") (B "Tar.Zip Container") (B "LZH Compression") 0 2 [x1f; xa0] (None);
  (* magic.h:181 *) mkMagic (B "bz2") (B "BZip2 Container") (B "") 0 3 [x42; x5a; x68] (None);
  (* magic.h:182 *) mkMagic (B "tar") (B "TAR Container") (B "") 257 5 [x75; x73; x74; x61; x72] (None);
  (* magic.h:183 *) mkMagic (B "tar") (B "Tar Archive") (B "") 0 5 [x75; x73; x74; x61; x72] (None);
  (* magic.h:184 *) mkMagic (B "gz") (B "GZIP Archive") (B "") 0 2 [x1f; x8b] (None);
  (* magic.h:185 *) mkMagic (B "cab") (B "Microsoft Cabinet file") (B "") 0 4 [x4d; x53; x43; x46] (None);
  (* magic.h:186 *) mkMagic (B "lha") (B "LHArc (lha/lzh) Archive") (B "") 2 3 [x2d; x6c; x68] (None);
  (* magic.h:187 *) mkMagic (B "vhd") (B "Microsoft Virtual HardDisk") (B "") 0 8 [x63; x6f; x6e; x65; x63; x74; x69; x78] (None);
  (* magic.h:188 *) mkMagic (B "vhdx") (B "Microsoft Virtual HardDisk v2") (B "") 0 8 [x76; x68; x64; x78; x66; x69; x6c; x65] (None);
  (* magic.h:189 *) mkMagic (B "xz") (B "XZ Compressed File") (B "") 0 6 [xfd; x37; x7a; x58; x5a; x00] (None);
  (* magic.h:190 *) mkMagic (B "iso") (B "ISO 9660 Disk Image") (B "") 32769 5 [x43; x44; x30; x30; x31] (None);
  (* magic.h:191 *) mkMagic (B "iso") (B "ISO 9660 Disk Image") (B "") 34817 5 [x43; x44; x30; x30; x31] (None);
  (* magic.h:192 *) mkMagic (B "iso") (B "ISO 9660 Disk Image") (B "") 36864 5 [x43; x44; x30; x30; x31] (None);
  (* magic.h:193 *) mkMagic (B "iso") (B "Universal Disk Format (ISO 13490/Ecma-168) - Beginning Extended Area Descriptor") (B "") 32769 5 [x42; x45; x41; x30; x31] (None);
  (* magic.h:194 *) mkMagic (B "iso") (B "Universal Disk Format (ISO 13490/Ecma-168) - Boot Descriptor") (B "") 32769 5 [x42; x4f; x4f; x54; x32] (None);
  (* magic.h:195 *) mkMagic (B "iso") (B "Universal Disk Format (ISO 13490/Ecma-168) - CD001 - ECMA-119") (B "") 32769 5 [x43; x44; x30; x30; x31] (None);
  (* magic.h:196 *) mkMagic (B "iso") (B "Universal Disk Format (ISO 13490/Ecma-168) - Volume Descriptor") (B "") 32769 5 [x43; x44; x57; x30; x32] (None);
  (* magic.h:197 *) mkMagic (B "iso") (B "Universal Disk Format (ISO 13490/Ecma-168) - NSR02 - ECMA-168") (B "") 32769 5 [x4e; x53; x52; x30; x32] (None);
  (* magic.h:198 *) mkMagic (B "iso") (B "Universal Disk Format (ISO 13490/Ecma-168) - NSR03 - ECMA-167") (B "") 32769 5 [x4e; x53; x52; x30; x33] (None);
  (* magic.h:199 *) mkMagic (B "iso") (B "Universal Disk Format (ISO 13490/Ecma-168) - Terminating Extended Area Descriptor") (B "") 32769 5 [x54; x45; x41; x30; x31] (None);
  (* magic.h:200 *) mkMagic (B "vmdk") (B "VMWare Virtual Disk") (B "") 0 3 [x4b; x44; x4d] (None);
  (* magic.h:201 *) mkMagic (B "pcap") (B "Network Packet Capture File") (B "") 0 4 [xd4; xc3; xb2; xa1] (None);
  (* magic.h:202 *) mkMagic (B "pcap") (B "Network Packet Capture File") (B "Nanosecond-precision timestamps") 0 4 [x4d; x3c; xb2; xa1] (None);
  (* magic.h:203 *) mkMagic (B "rpm") (B "Red Hat Package Manager File") (B "") 0 4 [xed; xab; xee; xdb] (None);
  (* magic.h:204 *) mkMagic (B "_") (B "MS-DOS Installtion Compressed File") (B "SZDD") 0 8 [x53; x5a; x44; x44; x88; xf0; x27; x33] (None);
  (* magic.h:205 *) mkMagic (B "_") (B "MS-DOS Installtion Compressed File") (B "KWAJ") 0 8 [x4b; x57; x41; x4a; x88; xf0; x27; xd1] (None);
  (* magic.h:206 *) mkMagic (B "_") (B "MS-DOS Installtion Compressed File") (B "QBasic SZDD") 0 8 [x53; x5a; x20; x88; xf0; x27; x33; xd1] (None);
  (* magic.h:207 *) mkMagic (B "sdi") (B "Microsoft System Deployment Image") (B "") 0 8 [x24; x53; x44; x49; x30; x30; x30; x31] (None);
  (* magic.h:208 *) mkMagic (B "wim") (B "Windows Imaging File Format") (B "") 0 7 [x4d; x53; x57; x49; x4d; x00; x00] (None);
  (* magic.h:209 *) mkMagic (B "ace") (B "ACE Archive") (B "") 7 7 [x2a; x2a; x41; x43; x45; x2a; x2a] (None);
  (* magic.h:210 *) mkMagic (B "ace") (B "ACE Archive") (B "") 0 7 [x2a; x2a; x41; x43; x45; x2a; x2a] (None);
  (* magic.h:211 *) mkMagic (B "ico") (B "Icon File") (B "") 0 4 [x00; x00; x01; x00] (None);
  (* magic.h:212 *) mkMagic (B "gif") (B "GIF Image") (B "GIF87a") 0 6 [x47; x49; x46; x38; x37; x61] (None);
  (* magic.h:213 *) mkMagic (B "gif") (B "GIF Image") (B "GIF89a") 0 6 [x47; x49; x46; x38; x39; x61] (None);
  (* magic.h:214 *) mkMagic (B "tiff") (B "Tagged Image File") (B "little endian") 0 4 [x49; x49; x2a; x00] (None);
  (* magic.h:215 *) mkMagic (B "tiff") (B "Tagged Image File") (B "big endian") 0 4 [x4d; x4d; x00; x2a] (None);
  (* magic.h:216 *) mkMagic (B "jpg") (B "JPEG Image") (B "") 0 2 [xff; xd8] (Some PJpeg);
  (* magic.h:217 *) mkMagic (B "png") (B "Portable Network Graphics") (B "") 0 8 [x89; x50; x4e; x47; x0d; x0a; x1a; x0a] (None);
  (* magic.h:218 *) mkMagic (B "bmp") (B "Bitmap Image") (B "") 0 2 [x42; x4d] (None);
  (* magic.h:219 *) mkMagic (B "cur") (B "Cursor") (B "") 0 4 [x00; x00; x02; x00] (None);
  (* magic.h:220 *) mkMagic (B "bmp") (B "Bitmap Image") (B "OS/2 Array") 0 2 [x42; x41] (None);
  (* magic.h:221 *) mkMagic (B "bmp") (B "Bitmap Image") (B "OS/2 Color Icon") 0 2 [x43; x49] (None);
  (* magic.h:222 *) mkMagic (B "bmp") (B "Bitmap Image") (B "OS/2 Color Pointer") 0 2 [x43; x50] (None);
  (* magic.h:223 *) mkMagic (B "bmp") (B " Bitmap Icon") (B "OS/2 Icon") 0 2 [x49; x43] (None);
  (* magic.h:224 *) mkMagic (B "bmp") (B "Bitmap Image") (B "OS/2 Pointer") 0 2 [x50; x54] (None);
  (* magic.h:225 *) mkMagic (B "psp") (B "Corel Paint Shop Pro Image file") (B "") 0 25 [x50; x61; x69; x6e; x74; x20; x53; x68; x6f; x70; x20; x50; x72; x6f; x20; x49; x6d; x61; x67; x65; x20; x46; x69; x6c; x65] (None);
  (* magic.h:226 *) mkMagic (B "jbf") (B "Corel Paint Shop Pro browse file") (B "") 0 15 [x4a; x41; x53; x43; x20; x42; x52; x4f; x57; x53; x20; x46; x49; x4c; x45] (None);
  (* magic.h:227 *) mkMagic (B "emf") (B "Microsoft Enchanced Metafile") (B "") 41 3 [x45; x4d; x46] (None);
  (* magic.h:228 *) mkMagic (B "eps") (B "Encapsulated PostScript") (B "") 41 4 [x45; x50; x53; x46] (None);
  (* magic.h:229 *) mkMagic (B "oless") (B "OLE Structured Storage") (B "") 0 4 [xd0; xcf; x11; xe0] (Some POless);
  (* magic.h:230 *) mkMagic (B "ps") (B "PostScript document") (B "") 0 4 [x25; x21; x50; x53] (None);
  (* magic.h:231 *) mkMagic (B "pdf") (B "PDF document") (B "") 0 4 [x25; x50; x44; x46] (None);
  (* magic.h:232 *) mkMagic (B "db") (B "SQLLite Database File") (B "") 0 16 [x53; x51; x4c; x69; x74; x65; x20; x66; x6f; x72; x6d; x61; x74; x20; x33; x00] (None);
  (* magic.h:233 *) mkMagic (B "dwg") (B "Autocad Drawing") (B "") 0 4 [x41; x43; x31; x30] (Some PDwg);
  (* magic.h:234 *) mkMagic (B "lnk") (B "LNK File") (B "") 0 20 [x4c; x00; x00; x00; x01; x14; x02; x00; x00; x00; x00; x00; xc0; x00; x00; x00; x00; x00; x00; x46] (None);
  (* magic.h:235 *) mkMagic (B "xls") (B "Microsoft Excel") (B "BIFF2") 0 2 [x09; x00] (None);
  (* magic.h:236 *) mkMagic (B "xls") (B "Microsoft Excel") (B "BIFF3") 0 2 [x09; x02] (None);
  (* magic.h:237 *) mkMagic (B "xls") (B "Microsoft Excel") (B "BIFF4") 0 2 [x09; x04] (None);
  (* magic.h:238 *) mkMagic (B "ppt") (B "Microsoft Powerpoint") (B "PPT95") 0 38 [x4d; x69; x63; x72; x6f; x73; x6f; x66; x74; x20; x28; x52; x29; x20; x50; x6f; x77; x65; x72; x50; x6f; x69; x6e; x74; x20; x28; x52; x29; x20; x57; x69; x6e; x64; x6f; x77; x73; x20; x20] (None);
  (* magic.h:239 *) mkMagic (B "ppt") (B "Microsoft Powerpoint") (B "PPT3") 0 4 [xed; xde; xad; x0b] (None);
  (* magic.h:240 *) mkMagic (B "ppt") (B "Microsoft Powerpoint") (B "PPT3 Swap") 0 4 [x0b; xad; xde; xed] (None);
  (* magic.h:241 *) mkMagic (B "mdb") (B "Microsoft Access Database") (B "MDB_System") 0 19 [x00; x01; x00; x00; x4a; x65; x74; x20; x53; x79; x73; x74; x65; x6d; x20; x44; x42; x20; x20] (None);
  (* magic.h:242 *) mkMagic (B "mdb") (B "Microsoft Access Database") (B "MDB_Standard") 0 19 [x00; x01; x00; x00; x53; x74; x61; x6e; x64; x61; x72; x64; x20; x4a; x65; x74; x20; x44; x42] (None);
  (* magic.h:243 *) mkMagic (B "mdb") (B "Microsoft Access Database") (B "MDB_Temp") 0 19 [x00; x01; x00; x00; x54; x65; x6d; x70; x20; x4a; x65; x74; x20; x44; x42; x20; x20; x20; x20] (None);
  (* magic.h:244 *) mkMagic (B "accdb") (B "Microsoft Access Database") (B "ACCDB_System") 0 19 [x00; x01; x00; x00; x41; x43; x45; x20; x53; x79; x73; x74; x65; x6d; x20; x44; x42; x20; x20] (None);
  (* magic.h:245 *) mkMagic (B "accdb") (B "Microsoft Access Database") (B "ACCDB_Standard") 0 19 [x00; x01; x00; x00; x53; x74; x61; x6e; x64; x61; x72; x64; x20; x41; x43; x45; x20; x44; x42] (None);
  (* magic.h:246 *) mkMagic (B "accdb") (B "Microsoft Access Database") (B "ACCDB_Temp") 0 19 [x00; x01; x00; x00; x54; x65; x6d; x70; x20; x41; x43; x45; x20; x44; x42; x20; x20; x20; x20] (None);
  (* magic.h:247 *) mkMagic (B "one") (B "Microsoft OneNote") (B "") 0 16 [xe4; x52; x5c; x7b; x8c; xd8; xa7; x4d; xae; xb1; x53; x78; xd0; x29; x96; xd3] (None);
  (* magic.h:248 *) mkMagic (B "onetoc2") (B "Microsoft OneNote Table of Contents") (B "") 0 16 [xa1; x2f; xff; x43; xd9; xef; x76; x4c; x9e; xe2; x10; xea; x57; x22; x76; x5f] (None);
  (* magic.h:249 *) mkMagic (B "pst") (B "Microsoft Outlook Personal Storage Table") (B "") 0 4 [x21; x42; x44; x4e] (None);
  (* magic.h:250 *) mkMagic (B "wab") (B "Microsoft Outlook Address File") (B "") 0 16 [x9c; xcb; xcb; x8d; x13; x75; xd2; x11; x91; x58; x00; xc0; x4f; x79; x56; xa4] (None);
  (* magic.h:251 *) mkMagic (B "chm") (B "Complied Help File") (B "") 0 4 [x49; x54; x53; x46] (None);
  (* magic.h:252 *) mkMagic (B "dmp") (B "Windows Dump File") (B "32-bit") 0 8 [x50; x41; x47; x45; x44; x55; x4d; x50] (None);
  (* magic.h:253 *) mkMagic (B "dmp") (B "Windows Dump File") (B "64-bit") 0 8 [x50; x41; x47; x45; x44; x55; x36; x34] (None);
  (* magic.h:254 *) mkMagic (B "hdmp") (B "Windows Dump File") (B "with heap") 0 6 [x4d; x44; x4d; x50; x93; xa7] (None);
  (* magic.h:255 *) mkMagic (B "rtf") (B "Rich Text Format") (B "") 0 5 [x7b; x5c; x72; x74; x66] (None);
  (* magic.h:256 *) mkMagic (B "rtf") (B "Rich Text ormat (missing F)") (B "") 0 4 [x7b; x5c; x72; x74] (None);
  (* magic.h:257 *) mkMagic (B "skp") (B "SketchUp Model") (B "") 0 32 [xff; xfe; xff; x0e; x53; x00; x6b; x00; x65; x00; x74; x00; x63; x00; x68; x00; x55; x00; x70; x00; x20; x00; x4d; x00; x6f; x00; x64; x00; x65; x00; x6c; x00] (None);
  (* magic.h:258 *) mkMagic (B "mdi") (B "Microsoft Office Document Imaging") (B "") 0 4 [x45; x50; x2a; x00] (None);
  (* magic.h:259 *) mkMagic (B "hlp") (B "Microsoft Help File") (B "") 0 4 [x3f; x5f; x03; x00] (None);
  (* magic.h:260 *) mkMagic (B "hlp") (B "Ubuntu Help File") (B "") 0 5 [x04; x12; x46; x31; x14] (None);
  (* magic.h:261 *) mkMagic (B "doc") (B "Microsoft Word for Macintosh 1.0") (B "1") 0 3 [xfe; x32; x00] (None);
  (* magic.h:262 *) mkMagic (B "doc") (B "Microsoft Word for Macintosh 2.0") (B "2") 0 3 [xfe; x33; x00] (None);
  (* magic.h:263 *) mkMagic (B "doc") (B "Microsoft Word for Macintosh 3.0") (B "3") 0 3 [xfe; x34; x00] (None);
  (* magic.h:264 *) mkMagic (B "doc") (B "Microsoft Word for Macintosh 4.0") (B "4") 0 8 [xfe; x37; x00; x1c; x00; x00; x00; x00] (None);
  (* magic.h:265 *) mkMagic (B "doc") (B "Microsoft Word for Macintosh 5.0") (B "5") 0 8 [xfe; x37; x00; x23; x00; x00; x00; x00] (None);
  (* magic.h:266 *) mkMagic (B "doc") (B "Microsoft PC Word") (B "3") 0 2 [xbe; x31] (None);
  (* magic.h:267 *) mkMagic (B "doc") (B "Microsoft Word OLD") (B "") 0 2 [x9b; xa5] (None);
  (* magic.h:268 *) mkMagic (B "doc") (B "Microsoft Word OLD") (B "") 0 2 [x9c; xa5] (None);
  (* magic.h:269 *) mkMagic (B "doc") (B "Microsoft Word OLD (MP 2.0)") (B "") 0 2 [x08; xec] (None);
  (* magic.h:270 *) mkMagic (B "doc") (B "Microsoft Word OLD (MP 3.0)") (B "") 0 2 [x08; xed] (None);
  (* magic.h:271 *) mkMagic (B "doc") (B "Microsoft WinWord 2.0") (B "") 0 2 [xdb; xa5] (None);
  (* magic.h:272 *) mkMagic (B "wri") (B "MS Write") (B "1") 0 2 [x31; xbe] (None);
  (* magic.h:273 *) mkMagic (B "wri") (B "MS Write") (B "2") 0 2 [x32; xbe] (None);
  (* magic.h:274 *) mkMagic (B "wri") (B "MS Write") (B "3") 0 5 [xbe; x00; x00; x00; xab] (None);
  (* magic.h:275 *) mkMagic (B "wps") (B "Microsoft Works (1-4)") (B "") 0 2 [x01; xfe] (None);
  (* magic.h:276 *) mkMagic (B "wp5") (B "WordPerfect File") (B "5") 0 4 [xff; x57; x50; x43] (Some PWordPerfect);
  (* magic.h:277 *) mkMagic (B "wp") (B "WordPerfect Encrypted File") (B "encrypted") 0 4 [xff; xff; x61; x61] (Some PWordPerfect);
  (* magic.h:278 *) mkMagic (B "mp4") (B "Mp4 Container") (B "") 4 4 [x66; x74; x79; x70] (Some PMp4);
  (* magic.h:279 *) mkMagic (B "asf") (B "ASF Container") (B "") 0 16 [x30; x26; xb2; x75; x8e; x66; xcf; x11; xa6; xd9; x00; xaa; x00; x62; xce; x6c] (Some PAsf);
  (* magic.h:280 *) mkMagic (B "riff") (B "Riff file") (B "") 0 4 [x52; x49; x46; x46] (Some PRiff);
  (* magic.h:281 *) mkMagic (B "mp3") (B "MPEG-1 Layer 3 file") (B "") 0 2 [xff; xfb] (None);
  (* magic.h:282 *) mkMagic (B "mp3") (B "MPEG-1 Layer 3 file") (B "ID3v2 Tag") 0 3 [x49; x44; x33] (None);
  (* magic.h:283 *) mkMagic (B "flv") (B "Flash Video") (B "") 0 3 [x46; x4c; x56] (None);
  (* magic.h:284 *) mkMagic (B "swf") (B "Shockwave Flash File") (B "") 0 3 [x46; x57; x53] (None);
  (* magic.h:285 *) mkMagic (B "swf") (B "Shockwave Flash File") (B "compressed") 0 3 [x43; x57; x53] (None);
  (* magic.h:286 *) mkMagic (B "flac") (B "Free Lossless Audio Codec") (B "") 0 4 [x66; x4c; x61; x43] (None);
  (* magic.h:287 *) mkMagic (B "midi") (B "MIDI Sound File") (B "") 0 4 [x4d; x54; x68; x64] (None);
  (* magic.h:288 *) mkMagic (B "woff") (B "Web Open Font Format") (B "1.0") 0 4 [x77; x4f; x46; x46] (None);
  (* magic.h:289 *) mkMagic (B "woff") (B "Web Open Font Format") (B "2.0") 0 4 [x77; x4f; x46; x32] (None);
  (* magic.h:290 *) mkMagic (B "otf") (B "Open Type Font") (B "") 0 4 [x4f; x54; x54; x4f] (None);
  (* magic.h:291 *) mkMagic (B "pfm") (B "Postscript Font") (B "type1") 0 4 [x74; x79; x70; x31] (None);
  (* magic.h:292 *) mkMagic (B "ttf") (B "True Type Font") (B "OSx") 0 4 [x74; x72; x75; x65] (None);
  (* magic.h:293 *) mkMagic (B "ttf") (B "True Type Font") (B "windows") 0 4 [x00; x01; x00; x00] (None);
  (* magic.h:294 *) mkMagic (B "sh") (B "*nix shebang script") (B "") 0 2 [x23; x21] (None);
  (* magic.h:295 *) mkMagic (B "xml") (B "XML") (B "ascii lowercase") 0 5 [x3c; x3f; x78; x6d; x6c] (None);
  (* magic.h:296 *) mkMagic (B "xml") (B "XML") (B "ascii uppercase") 0 5 [x3c; x3f; x58; x4d; x4c] (None);
  (* magic.h:297 *) mkMagic (B "xml") (B "XML") (B "utf8 lowercase") 0 8 [xef; xbb; xbf; x3c; x3f; x78; x6d; x6c] (None);
  (* magic.h:298 *) mkMagic (B "xml") (B "XML") (B "utf8 uppercase") 0 8 [xef; xbb; xbf; x3c; x3f; x58; x4d; x4c] (None);
  (* magic.h:299 *) mkMagic (B "xml") (B "XML") (B "unicode lowercase") 0 12 [xff; xfe; x3c; x00; x3f; x00; x78; x00; x6d; x00; x6c; x00] (None);
  (* magic.h:300 *) mkMagic (B "xml") (B "XML") (B "unicode uppercase") 0 12 [xff; xfe; x3c; x00; x3f; x00; x58; x00; x4d; x00; x4c; x00] (None);
  (* magic.h:301 *) mkMagic (B "html") (B "HTML Document") (B "ascii lowercase html") 0 5 [x3c; x68; x74; x6d; x6c] (None);
  (* magic.h:302 *) mkMagic (B "html") (B "HTML Document") (B "ascii lowercase doctype") 0 5 [x3c; x21; x64; x6f; x63] (None);
  (* magic.h:303 *) mkMagic (B "html") (B "HTML Document") (B "unicode lowercase html") 0 12 [xff; xfe; x3c; x00; x68; x00; x74; x00; x6d; x00; x6c; x00] (None);
  (* magic.h:304 *) mkMagic (B "html") (B "HTML Document") (B "unicode lowercase doctype") 0 12 [xff; xfe; x3c; x00; x21; x00; x64; x00; x6f; x00; x63; x00] (None);
  (* magic.h:305 *) mkMagic (B "html") (B "HTML Document") (B "ascii uppercase html") 0 5 [x3c; x48; x54; x4d; x4c] (None);
  (* magic.h:306 *) mkMagic (B "html") (B "HTML Document") (B "ascii uppercase doctype") 0 5 [x3c; x21; x44; x4f; x43] (None);
  (* magic.h:307 *) mkMagic (B "html") (B "HTML Document") (B "unicode uppercase html") 0 12 [xff; xfe; x3c; x00; x48; x00; x54; x00; x4d; x00; x4c; x00] (None);
  (* magic.h:308 *) mkMagic (B "html") (B "HTML Document") (B "unicode uppercase doctype") 0 12 [xff; xfe; x3c; x00; x21; x00; x44; x00; x4f; x00; x43; x00] (None);
  (* magic.h:309 *) mkMagic (B "html") (B "HTML Document") (B "utf8 lowercase html") 0 8 [xef; xbb; xbf; x3c; x68; x74; x6d; x6c] (None);
  (* magic.h:310 *) mkMagic (B "html") (B "HTML Document") (B "utf8 lowercase doctype") 0 8 [xef; xbb; xbf; x3c; x21; x64; x6f; x63] (None);
  (* magic.h:311 *) mkMagic (B "html") (B "HTML Document") (B "utf8 uppercase html") 0 8 [xef; xbb; xbf; x3c; x48; x54; x4d; x4c] (None);
  (* magic.h:312 *) mkMagic (B "html") (B "HTML Document") (B "utf8 uppercase doctype") 0 8 [xef; xbb; xbf; x3c; x21; x44; x4f; x43] (None);
  (* magic.h:313 *) mkMagic (B "slk") (B "Microsoft SYLK (Symbolic Link) file") (B "") 0 4 [x49; x44; x3b; x50] (None);
  (* magic.h:314 *) mkMagic (B "vbe") (B "Microsoft Encoded Script (JScript.Encoded)") (B "") 0 4 [x23; x40; x7e; x5e] (None)
].
