(** The items of /repo/fileid/data.xml: their attributes and their text.  Generated from that file by
    tools/gen_source.py; one item per source line, in source order. *)
From Coq Require Import List NArith Strings.String.
From Verif Require Import Lib.Bytes Gen.Model.
Import ListNotations.
Local Open Scope N_scope.

Definition magic_items : list item := [
  (* data.xml:5 *) mkItem [(B "extension", B "exe"); (B "shortname", B "dosexe"); (B "name", B "DOS Executable"); (B "extra", B "Exec::Detailer")] (B "0x4D,0x5A");
  (* data.xml:6 *) mkItem [(B "extension", B "elf"); (B "shortname", B "elf"); (B "name", B "ELF Executable")] (B "0x7F,0x45,0x4C,0x46");
  (* data.xml:7 *) mkItem [(B "extension", B "dex"); (B "shortname", B "dex"); (B "name", B "Dalvik Executable")] (B "0x64,0x65,0x78,0x0A,0x30,0x33");
  (* data.xml:8 *) mkItem [(B "extension", B "lib"); (B "shortname", B "lib"); (B "name", B "Microsoft Program Library Common Object File Format")] (B "0x21,0x3C,0x61,0x72,0x63,0x68,0x3E,0x0A");
  (* data.xml:9 *) mkItem [(B "extension", B "obj"); (B "shortname", B "obj"); (B "name", B "Microsoft Common Object File Format relocatable object code")] (B "0x4C,0x01");
  (* data.xml:10 *) mkItem [(B "extension", B "pdb"); (B "shortname", B "pdb1"); (B "version", B "2"); (B "name", B "Microsoft Program Database 2.0")] (B "0x4D,0x69,0x63,0x72,0x6F,0x73,0x6F,0x66,0x74,0x20,0x43,0x2F,0x43,0x2B,0x2B,0x20,0x70,0x72,0x6F,0x67,0x72,0x61,0x6D,0x20,0x64,0x61,0x74,0x61,0x62,0x61,0x73,0x65,0x20,0x32,0x2E,0x30,0x30,0x0D,0x0A");
  (* data.xml:11 *) mkItem [(B "extension", B "pdb"); (B "shortname", B "pdb2"); (B "version", B "7"); (B "name", B "Microsoft Program Database 7.0")] (B "0x4D,0x69,0x63,0x72,0x6F,0x73,0x6F,0x66,0x74,0x20,0x43,0x2F,0x43,0x2B,0x2B,0x20,0x4D,0x53,0x46,0x20,0x37,0x2E,0x30,0x30,0x0D,0x0A,0x1A,0x44,0x53");
  (* data.xml:12 *) mkItem [(B "extension", B "o"); (B "shortname", B "macho1"); (B "version", B "32-bit, big-endian"); (B "extra", B "Exec::MachO::Detailer"); (B "name", B "Mach-O Executable")] (B "0xfe,0xed,0xfa,0xce");
  (* data.xml:13 *) mkItem [(B "extension", B "o"); (B "shortname", B "macho2"); (B "version", B "32-bit, little-endian"); (B "extra", B "Exec::MachO::Detailer"); (B "name", B "Mach-O Executable")] (B "0xce,0xfa,0xed,0xfe");
  (* data.xml:14 *) mkItem [(B "extension", B "o"); (B "shortname", B "macho3"); (B "version", B "64-bit, big-endian"); (B "extra", B "Exec::MachO::Detailer"); (B "name", B "Mach-O Executable")] (B "0xfe,0xed,0xfa,0xcf");
  (* data.xml:15 *) mkItem [(B "extension", B "o"); (B "shortname", B "macho4"); (B "version", B "64-bit, little-endian"); (B "extra", B "Exec::MachO::Detailer"); (B "name", B "Mach-O Executable")] (B "0xcf,0xfa,0xed,0xfe");
  (* data.xml:16 *) mkItem [(B "extension", B "class"); (B "shortname", B "javaclass"); (B "name", B "Java Class File")] (B "0xCA,0xFE,0xBA,0xBE");
  (* data.xml:19 *) mkItem [(B "extension", B "zip"); (B "shortname", B "zip"); (B "name", B "Zip Archive"); (B "extra", B "zip::Detailer")] (B "0x50,0x4B");
  (* data.xml:20 *) mkItem [(B "extension", B "rar"); (B "shortname", B "rar"); (B "name", B "Rar Archive")] (B "0x52,0x61,0x72,0x21,0x1A,0x07");
  (* data.xml:21 *) mkItem [(B "extension", B "7z"); (B "shortname", B "7z"); (B "name", B "7z Archive")] (B "0x37,0x7A,0xBC,0xAF,0x27,0x1C");
  (* data.xml:22 *) mkItem [(B "extension", B "tar.z"); (B "shortname", B "tarzlzw"); (B "version", B "LZW Compression"); (B "name", B "Tar.Zip Container")] (B "0x1F,0x9D");
  (* data.xml:23 *) mkItem [(B "extension", B "tar.z"); (B "shortname", B "tarzlzh"); (B "version", B "LZH Compression"); (B "name", B "Tar.Zip Container")] (B "0x1f,0xA0");
  (* data.xml:24 *) mkItem [(B "extension", B "bz2"); (B "shortname", B "bz2"); (B "name", B "BZip2 Container")] (B "0x42,0x5A,0x68");
  (* data.xml:25 *) mkItem [(B "extension", B "tar"); (B "shortname", B "tar2"); (B "name", B "TAR Container"); (B "offset", B "257")] (B "ustar");
  (* data.xml:26 *) mkItem [(B "extension", B "tar"); (B "shortname", B "tar"); (B "name", B "Tar Archive")] (B "0x75,0x73,0x74,0x61,0x72");
  (* data.xml:27 *) mkItem [(B "extension", B "gz"); (B "shortname", B "gz"); (B "name", B "GZIP Archive")] (B "0x1F,0x8B");
  (* data.xml:28 *) mkItem [(B "extension", B "cab"); (B "shortname", B "cab"); (B "name", B "Microsoft Cabinet file")] (B "0x4D,0x53,0x43,0x46");
  (* data.xml:29 *) mkItem [(B "extension", B "lha"); (B "shortname", B "lha"); (B "offset", B "2"); (B "name", B "LHArc (lha/lzh) Archive")] (B "0x2D,0x6C,0x68");
  (* data.xml:30 *) mkItem [(B "extension", B "vhd"); (B "shortname", B "vhd"); (B "name", B "Microsoft Virtual HardDisk")] (B "0x63,0x6F,0x6E,0x65,0x63,0x74,0x69,0x78");
  (* data.xml:31 *) mkItem [(B "extension", B "vhdx"); (B "shortname", B "vhdx"); (B "name", B "Microsoft Virtual HardDisk v2")] (B "vhdxfile");
  (* data.xml:33 *) mkItem [(B "extension", B "xz"); (B "shortname", B "xz"); (B "name", B "XZ Compressed File")] (B "0xFD,0x37,0x7A,0x58,0x5A,0x00");
  (* data.xml:34 *) mkItem [(B "extension", B "iso"); (B "shortname", B "iso1"); (B "name", B "ISO 9660 Disk Image"); (B "offset", B "32769")] (B "0x43,0x44,0x30,0x30,0x31");
  (* data.xml:35 *) mkItem [(B "extension", B "iso"); (B "shortname", B "iso2"); (B "name", B "ISO 9660 Disk Image"); (B "offset", B "34817")] (B "0x43,0x44,0x30,0x30,0x31");
  (* data.xml:36 *) mkItem [(B "extension", B "iso"); (B "shortname", B "iso3"); (B "name", B "ISO 9660 Disk Image"); (B "offset", B "36864")] (B "0x43,0x44,0x30,0x30,0x31");
  (* data.xml:37 *) mkItem [(B "extension", B "iso"); (B "shortname", B "udf1"); (B "name", B "Universal Disk Format (ISO 13490/Ecma-168) - Beginning Extended Area Descriptor"); (B "offset", B "32769")] (B "BEA01");
  (* data.xml:38 *) mkItem [(B "extension", B "iso"); (B "shortname", B "udf2"); (B "name", B "Universal Disk Format (ISO 13490/Ecma-168) - Boot Descriptor"); (B "offset", B "32769")] (B "BOOT2");
  (* data.xml:39 *) mkItem [(B "extension", B "iso"); (B "shortname", B "udf3"); (B "name", B "Universal Disk Format (ISO 13490/Ecma-168) - CD001 - ECMA-119"); (B "offset", B "32769")] (B "CD001");
  (* data.xml:40 *) mkItem [(B "extension", B "iso"); (B "shortname", B "udf4"); (B "name", B "Universal Disk Format (ISO 13490/Ecma-168) - Volume Descriptor"); (B "offset", B "32769")] (B "CDW02");
  (* data.xml:41 *) mkItem [(B "extension", B "iso"); (B "shortname", B "udf5"); (B "name", B "Universal Disk Format (ISO 13490/Ecma-168) - NSR02 - ECMA-168"); (B "offset", B "32769")] (B "NSR02");
  (* data.xml:42 *) mkItem [(B "extension", B "iso"); (B "shortname", B "udf6"); (B "name", B "Universal Disk Format (ISO 13490/Ecma-168) - NSR03 - ECMA-167"); (B "offset", B "32769")] (B "NSR03");
  (* data.xml:43 *) mkItem [(B "extension", B "iso"); (B "shortname", B "udf7"); (B "name", B "Universal Disk Format (ISO 13490/Ecma-168) - Terminating Extended Area Descriptor"); (B "offset", B "32769")] (B "TEA01");
  (* data.xml:44 *) mkItem [(B "extension", B "vmdk"); (B "shortname", B "vmdk"); (B "name", B "VMWare Virtual Disk")] (B "0x4B,0x44,0x4D");
  (* data.xml:45 *) mkItem [(B "extension", B "pcap"); (B "shortname", B "pcap"); (B "name", B "Network Packet Capture File")] (B "0xD4,0xC3,0xB2,0xA1");
  (* data.xml:46 *) mkItem [(B "extension", B "pcap"); (B "shortname", B "pcapn"); (B "name", B "Network Packet Capture File"); (B "version", B "Nanosecond-precision timestamps")] (B "0x4D,0x3C,0xB2,0xA1");
  (* data.xml:47 *) mkItem [(B "extension", B "rpm"); (B "shortname", B "rpm"); (B "name", B "Red Hat Package Manager File")] (B "0xED,0xAB,0xEE,0xDB");
  (* data.xml:48 *) mkItem [(B "extension", B "_"); (B "shortname", B "dos_c1"); (B "name", B "MS-DOS Installtion Compressed File"); (B "version", B "SZDD")] (B "0x53,0x5A,0x44,0x44,0x88,0xF0,0x27,0x33");
  (* data.xml:49 *) mkItem [(B "extension", B "_"); (B "shortname", B "dos_c2"); (B "name", B "MS-DOS Installtion Compressed File"); (B "version", B "KWAJ")] (B "0x4B,0x57,0x41,0x4A,0x88,0xF0,0x27,0xD1");
  (* data.xml:50 *) mkItem [(B "extension", B "_"); (B "shortname", B "dos_c3"); (B "name", B "MS-DOS Installtion Compressed File"); (B "version", B "QBasic SZDD")] (B "0x53,0x5A,0x20,0x88,0xF0,0x27,0x33,0xD1");
  (* data.xml:51 *) mkItem [(B "extension", B "sdi"); (B "shortname", B "sdi1"); (B "name", B "Microsoft System Deployment Image")] (B "$SDI0001");
  (* data.xml:52 *) mkItem [(B "extension", B "wim"); (B "shortname", B "wim1"); (B "name", B "Windows Imaging File Format")] (B "0x4D,0x53,0x57,0x49,0x4D,0x00,0x00");
  (* data.xml:53 *) mkItem [(B "extension", B "ace"); (B "shortname", B "ace1"); (B "offset", B "7"); (B "name", B "ACE Archive")] (B "**ACE**");
  (* data.xml:54 *) mkItem [(B "extension", B "ace"); (B "shortname", B "ace2"); (B "offset", B "0"); (B "name", B "ACE Archive")] (B "**ACE**");
  (* data.xml:57 *) mkItem [(B "extension", B "ico"); (B "shortname", B "ico"); (B "name", B "Icon File")] (B "0x00,0x00,0x01,0x00");
  (* data.xml:58 *) mkItem [(B "extension", B "gif"); (B "shortname", B "gif87"); (B "version", B "GIF87a"); (B "name", B "GIF Image")] (B "0x47,0x49,0x46,0x38,0x37,0x61");
  (* data.xml:59 *) mkItem [(B "extension", B "gif"); (B "shortname", B "gif89"); (B "version", B "GIF89a"); (B "name", B "GIF Image")] (B "0x47,0x49,0x46,0x38,0x39,0x61");
  (* data.xml:60 *) mkItem [(B "extension", B "tiff"); (B "shortname", B "tiff_l"); (B "version", B "little endian"); (B "name", B "Tagged Image File")] (B "0x49,0x49,0x2A,0x00");
  (* data.xml:61 *) mkItem [(B "extension", B "tiff"); (B "shortname", B "tiff_b"); (B "version", B "big endian"); (B "name", B "Tagged Image File")] (B "0x4D,0x4D,0x00,0x2A");
  (* data.xml:62 *) mkItem [(B "extension", B "jpg"); (B "shortname", B "jpg"); (B "name", B "JPEG Image"); (B "extra", B "media::jpeg::Detailer")] (B "0xFF,0xD8");
  (* data.xml:63 *) mkItem [(B "extension", B "png"); (B "shortname", B "png"); (B "name", B "Portable Network Graphics")] (B "0x89,0x50,0x4E,0x47,0x0D,0x0A,0x1A,0x0A");
  (* data.xml:64 *) mkItem [(B "extension", B "bmp"); (B "shortname", B "bmp"); (B "name", B "Bitmap Image")] (B "0x42,0x4D");
  (* data.xml:65 *) mkItem [(B "extension", B "cur"); (B "shortname", B "cur"); (B "name", B "Cursor")] (B "0x00,0x00,0x02,0x00");
  (* data.xml:66 *) mkItem [(B "extension", B "bmp"); (B "shortname", B "bmpOS2a"); (B "version", B "OS/2 Array"); (B "name", B "Bitmap Image")] (B "0x42,0x41");
  (* data.xml:67 *) mkItem [(B "extension", B "bmp"); (B "shortname", B "bmpOS2ci"); (B "version", B "OS/2 Color Icon"); (B "name", B "Bitmap Image")] (B "0x43,0x49");
  (* data.xml:68 *) mkItem [(B "extension", B "bmp"); (B "shortname", B "bmpOS2cp"); (B "version", B "OS/2 Color Pointer"); (B "name", B "Bitmap Image")] (B "0x43,0x50");
  (* data.xml:69 *) mkItem [(B "extension", B "bmp"); (B "shortname", B "bmpOS2i"); (B "version", B "OS/2 Icon"); (B "name", B " Bitmap Icon")] (B "0x49,0x43");
  (* data.xml:70 *) mkItem [(B "extension", B "bmp"); (B "shortname", B "bmpOS2p"); (B "version", B "OS/2 Pointer"); (B "name", B "Bitmap Image")] (B "0x50,0x54");
  (* data.xml:71 *) mkItem [(B "extension", B "psp"); (B "shortname", B "psp"); (B "name", B "Corel Paint Shop Pro Image file")] (B "0x50,0x61,0x69,0x6E,0x74,0x20,0x53,0x68,0x6F,0x70,0x20,0x50,0x72,0x6F,0x20,0x49,0x6D,0x61,0x67,0x65,0x20,0x46,0x69,0x6C,0x65");
  (* data.xml:72 *) mkItem [(B "extension", B "jbf"); (B "shortname", B "jbf"); (B "name", B "Corel Paint Shop Pro browse file")] (B "0x4A,0x41,0x53,0x43,0x20,0x42,0x52,0x4F,0x57,0x53,0x20,0x46,0x49,0x4C,0x45");
  (* data.xml:73 *) mkItem [(B "extension", B "emf"); (B "shortname", B "emf"); (B "name", B "Microsoft Enchanced Metafile"); (B "offset", B "41")] (B "EMF");
  (* data.xml:74 *) mkItem [(B "extension", B "eps"); (B "shortname", B "eps"); (B "name", B "Encapsulated PostScript"); (B "offset", B "41")] (B "EPSF");
  (* data.xml:77 *) mkItem [(B "extension", B "oless"); (B "shortname", B "oless"); (B "name", B "OLE Structured Storage"); (B "extra", B "oless::Detailer")] (B "0xD0,0xCF,0x11,0xE0");
  (* data.xml:78 *) mkItem [(B "extension", B "ps"); (B "shortname", B "ps"); (B "name", B "PostScript document")] (B "0x25,0x21,0x50,0x53");
  (* data.xml:79 *) mkItem [(B "extension", B "pdf"); (B "shortname", B "pdf"); (B "name", B "PDF document")] (B "0x25,0x50,0x44,0x46");
  (* data.xml:80 *) mkItem [(B "extension", B "db"); (B "shortname", B "db"); (B "name", B "SQLLite Database File")] (B "0x53,0x51,0x4C,0x69,0x74,0x65,0x20,0x66,0x6F,0x72,0x6D,0x61,0x74,0x20,0x33,0x00");
  (* data.xml:81 *) mkItem [(B "extension", B "dwg"); (B "shortname", B "dwg"); (B "name", B "Autocad Drawing"); (B "extra", B "document::dwg::DwgHelper")] (B "0x41,0x43,0x31,0x30");
  (* data.xml:82 *) mkItem [(B "extension", B "lnk"); (B "shortname", B "lnk"); (B "name", B "LNK File")] (B "0x4C,0x00,0x00,0x00,0x01,0x14,0x02,0x00,0x00,0x00,0x00,0x00,0xC0,0x00,0x00,0x00,0x00,0x00,0x00,0x46");
  (* data.xml:83 *) mkItem [(B "extension", B "xls"); (B "shortname", B "biff2"); (B "version", B "BIFF2"); (B "name", B "Microsoft Excel")] (B "0x09,0x00");
  (* data.xml:84 *) mkItem [(B "extension", B "xls"); (B "shortname", B "biff3"); (B "version", B "BIFF3"); (B "name", B "Microsoft Excel")] (B "0x09,0x02");
  (* data.xml:85 *) mkItem [(B "extension", B "xls"); (B "shortname", B "biff4"); (B "version", B "BIFF4"); (B "name", B "Microsoft Excel")] (B "0x09,0x04");
  (* data.xml:86 *) mkItem [(B "extension", B "ppt"); (B "shortname", B "ppt95"); (B "version", B "PPT95"); (B "name", B "Microsoft Powerpoint")] (B "0x4D,0x69,0x63,0x72,0x6F,0x73,0x6F,0x66,0x74,0x20,0x28,0x52,0x29,0x20,0x50,0x6F,0x77,0x65,0x72,0x50,0x6F,0x69,0x6E,0x74,0x20,0x28,0x52,0x29,0x20,0x57,0x69,0x6E,0x64,0x6F,0x77,0x73,0x20,0x20");
  (* data.xml:87 *) mkItem [(B "extension", B "ppt"); (B "shortname", B "ppt3"); (B "version", B "PPT3"); (B "name", B "Microsoft Powerpoint")] (B "0xED,0xDE,0xAD,0x0B");
  (* data.xml:88 *) mkItem [(B "extension", B "ppt"); (B "shortname", B "ppt3s"); (B "version", B "PPT3 Swap"); (B "name", B "Microsoft Powerpoint")] (B "0x0B,0xAD,0xDE,0xED");
  (* data.xml:89 *) mkItem [(B "extension", B "mdb"); (B "shortname", B "mdbsys"); (B "version", B "MDB_System"); (B "name", B "Microsoft Access Database")] (B "0x00,0x01,0x00,0x00,0x4A,0x65,0x74,0x20,0x53,0x79,0x73,0x74,0x65,0x6D,0x20,0x44,0x42,0x20,0x20");
  (* data.xml:90 *) mkItem [(B "extension", B "mdb"); (B "shortname", B "mdbstd"); (B "version", B "MDB_Standard"); (B "name", B "Microsoft Access Database")] (B "0x00,0x01,0x00,0x00,0x53,0x74,0x61,0x6E,0x64,0x61,0x72,0x64,0x20,0x4A,0x65,0x74,0x20,0x44,0x42");
  (* data.xml:91 *) mkItem [(B "extension", B "mdb"); (B "shortname", B "mdbtmp"); (B "version", B "MDB_Temp"); (B "name", B "Microsoft Access Database")] (B "0x00,0x01,0x00,0x00,0x54,0x65,0x6D,0x70,0x20,0x4A,0x65,0x74,0x20,0x44,0x42,0x20,0x20,0x20,0x20");
  (* data.xml:92 *) mkItem [(B "extension", B "accdb"); (B "shortname", B "accdbsys"); (B "version", B "ACCDB_System"); (B "name", B "Microsoft Access Database")] (B "0x00,0x01,0x00,0x00,0x41,0x43,0x45,0x20,0x53,0x79,0x73,0x74,0x65,0x6D,0x20,0x44,0x42,0x20,0x20");
  (* data.xml:93 *) mkItem [(B "extension", B "accdb"); (B "shortname", B "accdbstd"); (B "version", B "ACCDB_Standard"); (B "name", B "Microsoft Access Database")] (B "0x00,0x01,0x00,0x00,0x53,0x74,0x61,0x6E,0x64,0x61,0x72,0x64,0x20,0x41,0x43,0x45,0x20,0x44,0x42");
  (* data.xml:94 *) mkItem [(B "extension", B "accdb"); (B "shortname", B "accdbtmp"); (B "version", B "ACCDB_Temp"); (B "name", B "Microsoft Access Database")] (B "0x00,0x01,0x00,0x00,0x54,0x65,0x6D,0x70,0x20,0x41,0x43,0x45,0x20,0x44,0x42,0x20,0x20,0x20,0x20");
  (* data.xml:95 *) mkItem [(B "extension", B "one"); (B "shortname", B "one"); (B "name", B "Microsoft OneNote")] (B "0xE4,0x52,0x5C,0x7B,0x8C,0xD8,0xA7,0x4D,0xAE,0xB1,0x53,0x78,0xD0,0x29,0x96,0xD3");
  (* data.xml:96 *) mkItem [(B "extension", B "onetoc2"); (B "shortname", B "onetoc"); (B "name", B "Microsoft OneNote Table of Contents")] (B "0xA1,0x2F,0xFF,0x43,0xD9,0xEF,0x76,0x4C,0x9E,0xE2,0x10,0xEA,0x57,0x22,0x76,0x5F");
  (* data.xml:97 *) mkItem [(B "extension", B "pst"); (B "shortname", B "pst"); (B "name", B "Microsoft Outlook Personal Storage Table")] (B "0x21,0x42,0x44,0x4E");
  (* data.xml:98 *) mkItem [(B "extension", B "wab"); (B "shortname", B "wab"); (B "name", B "Microsoft Outlook Address File")] (B "0x9C,0xCB,0xCB,0x8D,0x13,0x75,0xD2,0x11,0x91,0x58,0x00,0xC0,0x4F,0x79,0x56,0xA4");
  (* data.xml:99 *) mkItem [(B "extension", B "chm"); (B "shortname", B "chm"); (B "name", B "Complied Help File")] (B "0x49,0x54,0x53,0x46");
  (* data.xml:100 *) mkItem [(B "extension", B "dmp"); (B "shortname", B "dmp32"); (B "version", B "32-bit"); (B "name", B "Windows Dump File")] (B "0x50,0x41,0x47,0x45,0x44,0x55,0x4D,0x50");
  (* data.xml:101 *) mkItem [(B "extension", B "dmp"); (B "shortname", B "dmp64"); (B "version", B "64-bit"); (B "name", B "Windows Dump File")] (B "0x50,0x41,0x47,0x45,0x44,0x55,0x36,0x34");
  (* data.xml:102 *) mkItem [(B "extension", B "hdmp"); (B "shortname", B "hdmp"); (B "version", B "with heap"); (B "name", B "Windows Dump File")] (B "0x4D,0x44,0x4D,0x50,0x93,0xA7");
  (* data.xml:103 *) mkItem [(B "extension", B "rtf"); (B "shortname", B "rtf"); (B "name", B "Rich Text Format")] (B "0x7B,0x5C,0x72,0x74,0x66");
  (* data.xml:104 *) mkItem [(B "extension", B "rtf"); (B "shortname", B "rtf2"); (B "name", B "Rich Text ormat (missing F)")] (B "0x7B,0x5C,0x72,0x74");
  (* data.xml:105 *) mkItem [(B "extension", B "skp"); (B "shortname", B "skp"); (B "name", B "SketchUp Model")] (B "0xFF,0xFE,0xFF,0x0E,0x53,0x00,0x6B,0x00,0x65,0x00,0x74,0x00,0x63,0x00,0x68,0x00,0x55,0x00,0x70,0x00,0x20,0x00,0x4D,0x00,0x6F,0x00,0x64,0x00,0x65,0x00,0x6C,0x00");
  (* data.xml:106 *) mkItem [(B "extension", B "mdi"); (B "shortname", B "mdi"); (B "name", B "Microsoft Office Document Imaging")] (B "0x45,0x50,0x2a,0x00");
  (* data.xml:107 *) mkItem [(B "extension", B "hlp"); (B "shortname", B "hlp1"); (B "name", B "Microsoft Help File")] (B "0x3f,0x5f,0x03,0x00");
  (* data.xml:108 *) mkItem [(B "extension", B "hlp"); (B "shortname", B "hlp2"); (B "name", B "Ubuntu Help File")] (B "0x04,0x12,0x46,0x31,0x14");
  (* data.xml:110 *) mkItem [(B "extension", B "doc"); (B "shortname", B "mcw1"); (B "version", B "1"); (B "name", B "Microsoft Word for Macintosh 1.0")] (B "0xfe,0x32,0x00");
  (* data.xml:111 *) mkItem [(B "extension", B "doc"); (B "shortname", B "mcw2"); (B "version", B "2"); (B "name", B "Microsoft Word for Macintosh 2.0")] (B "0xfe,0x33,0x00");
  (* data.xml:112 *) mkItem [(B "extension", B "doc"); (B "shortname", B "mcw3"); (B "version", B "3"); (B "name", B "Microsoft Word for Macintosh 3.0")] (B "0xfe,0x34,0x00");
  (* data.xml:113 *) mkItem [(B "extension", B "doc"); (B "shortname", B "mcw4"); (B "version", B "4"); (B "name", B "Microsoft Word for Macintosh 4.0")] (B "0xfe,0x37,0x00,0x1c,0x00,0x00,0x00,0x00");
  (* data.xml:114 *) mkItem [(B "extension", B "doc"); (B "shortname", B "mcw5"); (B "version", B "5"); (B "name", B "Microsoft Word for Macintosh 5.0")] (B "0xfe,0x37,0x00,0x23,0x00,0x00,0x00,0x00");
  (* data.xml:115 *) mkItem [(B "extension", B "doc"); (B "shortname", B "pcw3"); (B "version", B "3"); (B "name", B "Microsoft PC Word")] (B "0xbe,0x31");
  (* data.xml:116 *) mkItem [(B "extension", B "doc"); (B "shortname", B "doc_old1"); (B "name", B "Microsoft Word OLD")] (B "0x9B,0xA5");
  (* data.xml:117 *) mkItem [(B "extension", B "doc"); (B "shortname", B "doc_old2"); (B "name", B "Microsoft Word OLD")] (B "0x9C,0xA5");
  (* data.xml:118 *) mkItem [(B "extension", B "doc"); (B "shortname", B "doc_old3"); (B "name", B "Microsoft Word OLD (MP 2.0)")] (B "0x08,0xEC");
  (* data.xml:119 *) mkItem [(B "extension", B "doc"); (B "shortname", B "doc_old4"); (B "name", B "Microsoft Word OLD (MP 3.0)")] (B "0x08,0xED");
  (* data.xml:121 *) mkItem [(B "extension", B "doc"); (B "shortname", B "doc_old6"); (B "name", B "Microsoft WinWord 2.0")] (B "0xDB,0xA5");
  (* data.xml:123 *) mkItem [(B "extension", B "wri"); (B "shortname", B "wri1"); (B "version", B "1"); (B "name", B "MS Write")] (B "0x31,0xBE");
  (* data.xml:124 *) mkItem [(B "extension", B "wri"); (B "shortname", B "wri2"); (B "version", B "2"); (B "name", B "MS Write")] (B "0x32,0xBE");
  (* data.xml:125 *) mkItem [(B "extension", B "wri"); (B "shortname", B "wri3"); (B "version", B "3"); (B "name", B "MS Write")] (B "0xBE,0x00,0x00,0x00,0xAB");
  (* data.xml:126 *) mkItem [(B "extension", B "wps"); (B "shortname", B "wps"); (B "name", B "Microsoft Works (1-4)")] (B "0x01,0xFE");
  (* data.xml:127 *) mkItem [(B "extension", B "wp5"); (B "shortname", B "wp5"); (B "version", B "5"); (B "name", B "WordPerfect File"); (B "extra", B "document::wp::Detailer")] (B "0xFF,0x57,0x50,0x43");
  (* data.xml:128 *) mkItem [(B "extension", B "wp"); (B "shortname", B "wpenc"); (B "version", B "encrypted"); (B "name", B "WordPerfect Encrypted File"); (B "extra", B "document::wp::Detailer")] (B "0xff,0xff,0x61,0x61");
  (* data.xml:132 *) mkItem [(B "extension", B "mp4"); (B "shortname", B "mp4"); (B "name", B "Mp4 Container"); (B "offset", B "4"); (B "extra", B "media::mp4::Detailer")] (B "0x66,0x74,0x79,0x70");
  (* data.xml:133 *) mkItem [(B "extension", B "asf"); (B "shortname", B "asf"); (B "name", B "ASF Container"); (B "extra", B "media::asf::Detailer")] (B "0x30,0x26,0xB2,0x75,0x8E,0x66,0xCF,0x11,0xA6,0xD9,0x00,0xAA,0x00,0x62,0xCE,0x6C");
  (* data.xml:134 *) mkItem [(B "extension", B "riff"); (B "shortname", B "riff"); (B "name", B "Riff file"); (B "extra", B "media::riff::RIFFHelper")] (B "0x52,0x49,0x46,0x46");
  (* data.xml:135 *) mkItem [(B "extension", B "mp3"); (B "shortname", B "mp3"); (B "name", B "MPEG-1 Layer 3 file")] (B "0xFF,0xFB");
  (* data.xml:136 *) mkItem [(B "extension", B "mp3"); (B "shortname", B "mp3id3v2"); (B "version", B "ID3v2 Tag"); (B "name", B "MPEG-1 Layer 3 file")] (B "0x49,0x44,0x33");
  (* data.xml:137 *) mkItem [(B "extension", B "flv"); (B "shortname", B "flv"); (B "name", B "Flash Video")] (B "0x46,0x4C,0x56");
  (* data.xml:138 *) mkItem [(B "extension", B "swf"); (B "shortname", B "swf"); (B "name", B "Shockwave Flash File")] (B "0x46,0x57,0x53");
  (* data.xml:139 *) mkItem [(B "extension", B "swf"); (B "shortname", B "cwf"); (B "version", B "compressed"); (B "name", B "Shockwave Flash File")] (B "0x43,0x57,0x53");
  (* data.xml:140 *) mkItem [(B "extension", B "flac"); (B "shortname", B "flac"); (B "name", B "Free Lossless Audio Codec")] (B "0x66,0x4C,0x61,0x43");
  (* data.xml:141 *) mkItem [(B "extension", B "midi"); (B "shortname", B "midi"); (B "name", B "MIDI Sound File")] (B "0x4D,0x54,0x68,0x64");
  (* data.xml:144 *) mkItem [(B "extension", B "woff"); (B "shortname", B "woff1"); (B "name", B "Web Open Font Format"); (B "version", B "1.0")] (B "0x77,0x4f,0x46,0x46");
  (* data.xml:145 *) mkItem [(B "extension", B "woff"); (B "shortname", B "woff2"); (B "name", B "Web Open Font Format"); (B "version", B "2.0")] (B "0x77,0x4f,0x46,0x32");
  (* data.xml:146 *) mkItem [(B "extension", B "otf"); (B "shortname", B "otf"); (B "name", B "Open Type Font")] (B "OTTO");
  (* data.xml:147 *) mkItem [(B "extension", B "pfm"); (B "shortname", B "pfm"); (B "name", B "Postscript Font"); (B "version", B "type1")] (B "typ1");
  (* data.xml:148 *) mkItem [(B "extension", B "ttf"); (B "shortname", B "ttf1"); (B "name", B "True Type Font"); (B "version", B "OSx")] (B "true");
  (* data.xml:149 *) mkItem [(B "extension", B "ttf"); (B "shortname", B "ttf2"); (B "name", B "True Type Font"); (B "version", B "windows")] (B "0x00,0x01,0x00,0x00");
  (* data.xml:152 *) mkItem [(B "extension", B "sh"); (B "shortname", B "sh"); (B "name", B "*nix shebang script")] (B "0x23,0x21");
  (* data.xml:153 *) mkItem [(B "extension", B "xml"); (B "shortname", B "xml_al"); (B "name", B "XML"); (B "version", B "ascii lowercase")] (B "0x3C,0x3F,0x78,0x6D,0x6C");
  (* data.xml:154 *) mkItem [(B "extension", B "xml"); (B "shortname", B "xml_au"); (B "name", B "XML"); (B "version", B "ascii uppercase")] (B "0x3C,0x3F,0x58,0x4D,0x4C");
  (* data.xml:155 *) mkItem [(B "extension", B "xml"); (B "shortname", B "xml_8l"); (B "name", B "XML"); (B "version", B "utf8 lowercase")] (B "0xEF,0xBB,0xBF,0x3C,0x3F,0x78,0x6D,0x6C");
  (* data.xml:156 *) mkItem [(B "extension", B "xml"); (B "shortname", B "xml_8u"); (B "name", B "XML"); (B "version", B "utf8 uppercase")] (B "0xEF,0xBB,0xBF,0x3C,0x3F,0x58,0x4D,0x4C");
  (* data.xml:157 *) mkItem [(B "extension", B "xml"); (B "shortname", B "xml_ul"); (B "name", B "XML"); (B "version", B "unicode lowercase")] (B "0xFF,0xFE,0x3C,0x00,0x3F,0x00,0x78,0x00,0x6D,0x00,0x6C,0x00");
  (* data.xml:158 *) mkItem [(B "extension", B "xml"); (B "shortname", B "xml_uu"); (B "name", B "XML"); (B "version", B "unicode uppercase")] (B "0xFF,0xFE,0x3C,0x00,0x3F,0x00,0x58,0x00,0x4D,0x00,0x4C,0x00");
  (* data.xml:159 *) mkItem [(B "extension", B "html"); (B "shortname", B "html_hal"); (B "version", B "ascii lowercase html"); (B "name", B "HTML Document")] (B "0x3C,0x68,0x74,0x6D,0x6C");
  (* data.xml:160 *) mkItem [(B "extension", B "html"); (B "shortname", B "html_dal"); (B "version", B "ascii lowercase doctype"); (B "name", B "HTML Document")] (B "0x3C,0x21,0x64,0x6F,0x63");
  (* data.xml:161 *) mkItem [(B "extension", B "html"); (B "shortname", B "html_hul"); (B "version", B "unicode lowercase html"); (B "name", B "HTML Document")] (B "0xFF,0xFE,0x3C,0x00,0x68,0x00,0x74,0x00,0x6D,0x00,0x6C,0x00");
  (* data.xml:162 *) mkItem [(B "extension", B "html"); (B "shortname", B "html_dul"); (B "version", B "unicode lowercase doctype"); (B "name", B "HTML Document")] (B "0xFF,0xFE,0x3C,0x00,0x21,0x00,0x64,0x00,0x6F,0x00,0x63,0x00");
  (* data.xml:163 *) mkItem [(B "extension", B "html"); (B "shortname", B "html_hau"); (B "version", B "ascii uppercase html"); (B "name", B "HTML Document")] (B "0x3C,0x48,0x54,0x4d,0x4c");
  (* data.xml:164 *) mkItem [(B "extension", B "html"); (B "shortname", B "html_dau"); (B "version", B "ascii uppercase doctype"); (B "name", B "HTML Document")] (B "0x3C,0x21,0x44,0x4f,0x43");
  (* data.xml:165 *) mkItem [(B "extension", B "html"); (B "shortname", B "html_huu"); (B "version", B "unicode uppercase html"); (B "name", B "HTML Document")] (B "0xFF,0xFE,0x3C,0x00,0x48,0x00,0x54,0x00,0x4D,0x00,0x4C,0x00");
  (* data.xml:166 *) mkItem [(B "extension", B "html"); (B "shortname", B "html_duu"); (B "version", B "unicode uppercase doctype"); (B "name", B "HTML Document")] (B "0xFF,0xFE,0x3C,0x00,0x21,0x00,0x44,0x00,0x4F,0x00,0x43,0x00");
  (* data.xml:167 *) mkItem [(B "extension", B "html"); (B "shortname", B "html_h8l"); (B "version", B "utf8 lowercase html"); (B "name", B "HTML Document")] (B "0xEF,0xBB,0xBF,0x3C,0x68,0x74,0x6D,0x6C");
  (* data.xml:168 *) mkItem [(B "extension", B "html"); (B "shortname", B "html_d8l"); (B "version", B "utf8 lowercase doctype"); (B "name", B "HTML Document")] (B "0xEF,0xBB,0xBF,0x3C,0x21,0x64,0x6F,0x63");
  (* data.xml:169 *) mkItem [(B "extension", B "html"); (B "shortname", B "html_h8u"); (B "version", B "utf8 uppercase html"); (B "name", B "HTML Document")] (B "0xEF,0xBB,0xBF,0x3C,0x48,0x54,0x4d,0x4c");
  (* data.xml:170 *) mkItem [(B "extension", B "html"); (B "shortname", B "html_d8u"); (B "version", B "utf8 uppercase doctype"); (B "name", B "HTML Document")] (B "0xEF,0xBB,0xBF,0x3C,0x21,0x44,0x4f,0x43");
  (* data.xml:171 *) mkItem [(B "extension", B "slk"); (B "shortname", B "slk1"); (B "name", B "Microsoft SYLK (Symbolic Link) file")] (B "ID;P");
  (* data.xml:172 *) mkItem [(B "extension", B "vbe"); (B "shortname", B "vbe"); (B "name", B "Microsoft Encoded Script (JScript.Encoded)")] (B "0x23,0x40,0x7E,0x5E")].

Definition ole_items : list item := [
  (* data.xml:181 *) mkItem [(B "extension", B "irm"); (B "shortname", B "irm1"); (B "name", B "Microsoft Office Information Rights Managed File"); (B "subtype", B "drm")] (B "/DRMContent");
  (* data.xml:182 *) mkItem [(B "extension", B "irm"); (B "shortname", B "irm2"); (B "name", B "Microsoft Office Encrypted Office File"); (B "subtype", B "encrypted")] (B "/\u0006DataSpaces/DataSpaceMap");
  (* data.xml:184 *) mkItem [(B "extension", B "doc"); (B "shortname", B "doc1"); (B "name", B "Microsoft Office Word File"); (B "extra", B "document::word::Detailer")] (B "/WordDocument");
  (* data.xml:185 *) mkItem [(B "extension", B "xls"); (B "shortname", B "xls1"); (B "name", B "Microsoft Office Excel File"); (B "ignoreCase", B "True"); (B "extra", B "oless::excel::Detailer")] (B "/Workbook");
  (* data.xml:186 *) mkItem [(B "extension", B "xls"); (B "shortname", B "xls2"); (B "name", B "Microsoft Office Excel File"); (B "ignoreCase", B "True"); (B "extra", B "oless::excel::Detailer")] (B "/Book");
  (* data.xml:187 *) mkItem [(B "extension", B "ppt"); (B "shortname", B "ppt1"); (B "name", B "Microsoft Office PowerPoint File"); (B "extra", B "document::powerpoint::Detailer")] (B "/PowerPoint Document");
  (* data.xml:188 *) mkItem [(B "extension", B "ppt"); (B "shortname", B "ppt4"); (B "name", B "Microsoft Office PowerPoint File"); (B "version", B "Powerpoint 4.0")] (B "/PP40");
  (* data.xml:190 *) mkItem [(B "extension", B "pub"); (B "shortname", B "pub1"); (B "name", B "Microsoft Office Publisher File"); (B "extra", B "document::publisher::Detailer")] (B "/Contents");
  (* data.xml:191 *) mkItem [(B "extension", B "vsd"); (B "shortname", B "vsd1"); (B "name", B "Microsoft Office Visio File"); (B "extra", B "document::visio::Detailer")] (B "/VisioDocument");
  (* data.xml:193 *) mkItem [(B "extension", B "msg"); (B "shortname", B "msg1"); (B "name", B "Microsoft Office Outlook Mail Message")] (B "/__properties_version1.0");
  (* data.xml:194 *) mkItem [(B "extension", B "obd"); (B "shortname", B "obd1"); (B "name", B "Microsoft Office Binder")] (B "/Binder");
  (* data.xml:196 *) mkItem [(B "extension", B "mpp"); (B "shortname", B "mpp9"); (B "name", B "Microsoft Project File"); (B "version", B "Project 9"); (B "subtype", B "Office 2003")] (B "/Props9");
  (* data.xml:197 *) mkItem [(B "extension", B "mpp"); (B "shortname", B "mpp12"); (B "name", B "Microsoft Project File"); (B "version", B "Project 12"); (B "subtype", B "Office 2007")] (B "/Props12");
  (* data.xml:198 *) mkItem [(B "extension", B "mpp"); (B "shortname", B "mpp14"); (B "name", B "Microsoft Project File"); (B "version", B "Project 14"); (B "subtype", B "Office 2010")] (B "/Props14");
  (* data.xml:200 *) mkItem [(B "extension", B "bup"); (B "shortname", B "bup1"); (B "name", B "McAfee Quarantied File")] (B "/Details");
  (* data.xml:201 *) mkItem [(B "extension", B "wps"); (B "shortname", B "wps1"); (B "name", B "Microsoft Works File")] (B "/CONTENTS");
  (* data.xml:202 *) mkItem [(B "extension", B "wps"); (B "shortname", B "wps2"); (B "name", B "Microsoft Works File")] (B "/MatOST");
  (* data.xml:204 *) mkItem [(B "extension", B "sdc"); (B "shortname", B "sdc1"); (B "name", B "StarOffice Calc File")] (B "/StarCalcDocument");
  (* data.xml:205 *) mkItem [(B "extension", B "sdw"); (B "shortname", B "sdw1"); (B "name", B "StarOffice Write File")] (B "/StarWriterDocument");
  (* data.xml:207 *) mkItem [(B "extension", B "hwp"); (B "shortname", B "hwp1"); (B "name", B "Hangul Word Processor File")] (B "/HwpSummaryInformation");
  (* data.xml:208 *) mkItem [(B "extension", B "hwp"); (B "shortname", B "hwp2"); (B "name", B "Hangul Word Processor File")] (B "/\u0005HwpSummaryInformation");
  (* data.xml:210 *) mkItem [(B "extension", B "wp"); (B "shortname", B "wp1"); (B "name", B "WordPerfect File"); (B "extra", B "document::wp::StreamDetailer")] (B "/PerfectOffice_MAIN");
  (* data.xml:213 *) mkItem [(B "extension", B "msi"); (B "shortname", B "msi2"); (B "name", B "Microsoft Installer File"); (B "extra", B "document::msi::Detailer")] (B "/\u4840\u3F3F\u4577\u446C\u3B6A\u45E4\u4824");
  (* data.xml:215 *) mkItem [(B "extension", B "ole_embedded"); (B "shortname", B "ole"); (B "ignoreCase", B "True"); (B "name", B "OLE Native Stream (Embedded Object)")] (B "/\u0001Ole10Native");
  (* data.xml:216 *) mkItem [(B "extension", B "ole_dat"); (B "shortname", B "recoverystore"); (B "ignoreCase", B "False"); (B "name", B "Internet Explorer Recovery Store")] (B "/TravelLog");
  (* data.xml:217 *) mkItem [(B "extension", B "ole_eq"); (B "shortname", B "equation"); (B "ignoreCase", B "True"); (B "name", B "OLE Equation Editor")] (B "/Equation Native")].
