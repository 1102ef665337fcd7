(** Signatures of formats, written down from memory of their specifications with no copy of these at hand; they
    share no definition with the tables of the program: the extension, the offset of the signature and its bytes. *)
From Coq Require Import List NArith Strings.String Strings.Byte.
From Verif Require Import Lib.Bytes.
Import ListNotations.
Local Open Scope N_scope.

Record published := mkPublished { pub_extension : bytes; pub_offset : N; pub_bytes : bytes }.
Definition at_start (x s : bytes) : published := mkPublished x 0 s.

Definition published_formats : list published := [
  (* System V ABI: e_ident *)
  at_start (B "elf") (x7f :: B "ELF");
  (* Dalvik executable format: DEX_FILE_MAGIC, versions 035 to 039 *)
  at_start (B "dex") (B "dex" ++ [x0a] ++ B "035" ++ [x00]); at_start (B "dex") (B "dex" ++ [x0a] ++ B "039" ++ [x00]);
  (* PE format: archive signature; machine type of 80386 objects *)
  at_start (B "lib") (B "!<arch>" ++ [x0a]); at_start (B "obj") [x4c; x01];
  (* Java virtual machine specification: magic *)
  at_start (B "class") [xca; xfe; xba; xbe];
  (* program databases, versions 2 and 7 *)
  at_start (B "pdb") (B "Microsoft C/C++ program database 2.00" ++ [x0d; x0a; x1a] ++ B "JG");
  at_start (B "pdb") (B "Microsoft C/C++ MSF 7.00" ++ [x0d; x0a; x1a] ++ B "DS" ++ [x00; x00; x00]);
  (* RAR 4 and 5 *)
  at_start (B "rar") (B "Rar!" ++ [x1a; x07; x00]); at_start (B "rar") (B "Rar!" ++ [x1a; x07; x01; x00]);
  at_start (B "7z") (B "7z" ++ [xbc; xaf; x27; x1c]);
  (* compress *)
  at_start (B "tar.z") [x1f; x9d];
  (* bzip2, RFC 1952, .xz file format *)
  at_start (B "bz2") (B "BZh"); at_start (B "gz") [x1f; x8b]; at_start (B "xz") (xfd :: B "7zXZ" ++ [x00]);
  (* POSIX.1 ustar, GNU tar *)
  mkPublished (B "tar") 257 (B "ustar" ++ [x00]); mkPublished (B "tar") 257 (B "ustar ");
  (* MS-CAB *)
  at_start (B "cab") (B "MSCF" ++ [x00; x00; x00; x00]);
  (* lharc: the method *)
  mkPublished (B "lha") 2 (B "-lh5-"); mkPublished (B "lha") 2 (B "-lh7-");
  (* VHD specification: the cookie of the footer; MS-VHDX *)
  at_start (B "vhd") (B "conectix"); at_start (B "vhdx") (B "vhdxfile");
  (* ECMA-119: the first two volume descriptors; ECMA-167: the first structure *)
  mkPublished (B "iso") (2048 * 16 + 1) (B "CD001"); mkPublished (B "iso") (2048 * 17 + 1) (B "CD001"); mkPublished (B "iso") (2048 * 16 + 1) (B "BEA01");
  (* VMware hosted sparse extents *)
  at_start (B "vmdk") (B "KDMV");
  (* libpcap, little-endian *)
  at_start (B "pcap") [xd4; xc3; xb2; xa1; x02; x00; x04; x00]; at_start (B "pcap") [x4d; x3c; xb2; xa1; x02; x00; x04; x00];
  (* RPM lead *)
  at_start (B "rpm") [xed; xab; xee; xdb];
  (* compress.exe *)
  at_start (B "_") (B "SZDD" ++ [x88; xf0; x27; x33]); at_start (B "_") (B "KWAJ" ++ [x88; xf0; x27; xd1]);
  (* Windows Imaging Format *)
  at_start (B "wim") (B "MSWIM" ++ [x00; x00; x00]);
  mkPublished (B "ace") 7 (B "**ACE**");
  (* icons and cursors *)
  at_start (B "ico") [x00; x00; x01; x00]; at_start (B "cur") [x00; x00; x02; x00];
  (* GIF87a, GIF89a, TIFF 6.0, PNG *)
  at_start (B "gif") (B "GIF87a"); at_start (B "gif") (B "GIF89a"); at_start (B "tiff") (B "II" ++ [x2a; x00]); at_start (B "tiff") (B "MM" ++ [x00; x2a]);
  at_start (B "png") (x89 :: B "PNG" ++ [x0d; x0a; x1a; x0a]);
  (* bitmaps of Windows, arrays of bitmaps of OS/2 *)
  at_start (B "bmp") (B "BM"); at_start (B "bmp") (B "BA");
  (* MS-EMF: the signature of the header *)
  mkPublished (B "emf") 40 (B " EMF");
  (* PostScript document structuring, PDF *)
  at_start (B "ps") (B "%!PS-Adobe-3.0"); at_start (B "pdf") (B "%PDF-");
  (* SQLite 3 *)
  at_start (B "db") (B "SQLite format 3" ++ [x00]);
  (* MS-SHLLINK: the size of the header and the class identifier 00021401-0000-0000-C000-000000000046 *)
  at_start (B "lnk") ([x4c; x00; x00; x00] ++ [x01; x14; x02; x00; x00; x00; x00; x00; xc0; x00; x00; x00; x00; x00; x00; x46]);
  (* BOF records of worksheets before BIFF5 *)
  at_start (B "xls") [x09; x00; x04; x00]; at_start (B "xls") [x09; x02; x06; x00]; at_start (B "xls") [x09; x04; x06; x00];
  (* Jet and ACE databases *)
  at_start (B "mdb") ([x00; x01; x00; x00] ++ B "Standard Jet DB" ++ [x00]); at_start (B "accdb") ([x00; x01; x00; x00] ++ B "Standard ACE DB" ++ [x00]);
  (* MS-ONESTORE: 7B5C52E4-D88C-4DA7-AEB1-5378D02996D3 and 43FF2FA1-EFD9-4C76-9EE2-10EA5722765F *)
  at_start (B "one") [xe4; x52; x5c; x7b; x8c; xd8; xa7; x4d; xae; xb1; x53; x78; xd0; x29; x96; xd3];
  at_start (B "onetoc2") [xa1; x2f; xff; x43; xd9; xef; x76; x4c; x9e; xe2; x10; xea; x57; x22; x76; x5f];
  (* MS-PST: dwMagic *)
  at_start (B "pst") (B "!BDN");
  at_start (B "chm") (B "ITSF");
  (* crash dumps and minidumps *)
  at_start (B "dmp") (B "PAGEDUMP"); at_start (B "dmp") (B "PAGEDU64"); at_start (B "hdmp") (B "MDMP" ++ [x93; xa7]);
  (* Rich Text Format 1.9.1 *)
  at_start (B "rtf") (B "{\rtf1");
  at_start (B "hlp") [x3f; x5f; x03; x00];
  (* MPEG-1 layer III without protection, ID3v2 *)
  at_start (B "mp3") [xff; xfb]; at_start (B "mp3") (B "ID3");
  (* Adobe Flash Video, SWF 19 *)
  at_start (B "flv") (B "FLV" ++ [x01]); at_start (B "swf") (B "FWS"); at_start (B "swf") (B "CWS");
  (* FLAC, standard MIDI files *)
  at_start (B "flac") (B "fLaC"); at_start (B "midi") (B "MThd" ++ [x00; x00; x00; x06]);
  (* WOFF 1 and 2, OpenType *)
  at_start (B "woff") (B "wOFF"); at_start (B "woff") (B "wOF2"); at_start (B "otf") (B "OTTO"); at_start (B "ttf") [x00; x01; x00; x00]; at_start (B "ttf") (B "true");
  (* scripts, XML, HTML, encoded scripts *)
  at_start (B "sh") (B "#!/"); at_start (B "xml") (B "<?xml "); at_start (B "xml") ([xef; xbb; xbf] ++ B "<?xml "); at_start (B "html") (B "<!DOCTYPE html>"); at_start (B "html") (B "<!doctype html>"); at_start (B "html") (B "<html>");
  at_start (B "vbe") (B "#@~^") ].

(** Encapsulated PostScript 3.0: the first line gives the version of the structuring conventions
    and of EPSF, as in [%!PS-Adobe-3.0 EPSF-3.0]. *)
Definition eps_prefix : bytes := B "%!PS-Adobe-".
Definition eps_word : bytes := B "EPSF-".
Definition eps_word_offset : N := 15.
(** libpcap: a file written on a big-endian machine, with microseconds or nanoseconds, version 2.4 *)
Definition big_endian_captures : list bytes := [[xa1; xb2; xc3; xd4; x00; x02; x00; x04]; [xa1; xb2; x3c; x4d; x00; x02; x00; x04]].
(** SWF 13: compressed with LZMA *)
Definition lzma_flash : bytes := B "ZWS".
(** ECMA-119: descriptor [k] begins in sector 16 + k, its identifier at the second byte *)
Definition descriptor_offset (k : N) : N := 2048 * (16 + k) + 1.
(** A volume with descriptor [k] only, an Encapsulated PostScript file *)
Definition volume (k : N) : bytes := repeatN x00 (descriptor_offset k) ++ B "CD001".
Definition eps_file : bytes := B "%!PS-Adobe-3.0 EPSF-3.0" ++ [x0a] ++ B "%%BoundingBox: 0 0 100 100" ++ [x0a] ++ B "%%EOF" ++ [x0a].
