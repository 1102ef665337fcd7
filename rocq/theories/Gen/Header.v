(** Lines of /repo/fileid/magic.h and /repo/fileid/oless/olessmagic.h without the white space around
    them.  Generated from those files by tools/gen_source.py. *)
From Coq Require Import List NArith Strings.String.
From Verif Require Import Lib.Bytes.
Import ListNotations.
Local Open Scope N_scope.

Definition magic_arrays : list bytes := [
  (* magic.h:9 *) B "unsigned char magic_dosexe[2] = {0x4D,0x5A};";
  (* magic.h:10 *) B "unsigned char magic_elf[4] = {0x7F,0x45,0x4C,0x46};";
  (* magic.h:11 *) B "unsigned char magic_dex[6] = {0x64,0x65,0x78,0x0A,0x30,0x33};";
  (* magic.h:12 *) B "unsigned char magic_lib[8] = {0x21,0x3C,0x61,0x72,0x63,0x68,0x3E,0x0A};";
  (* magic.h:13 *) B "unsigned char magic_obj[2] = {0x4C,0x01};";
  (* magic.h:14 *) B "unsigned char magic_pdb1[39] = {0x4D,0x69,0x63,0x72,0x6F,0x73,0x6F,0x66,0x74,0x20,0x43,0x2F,0x43,0x2B,0x2B,0x20,0x70,0x72,0x6F,0x67,0x72,0x61,0x6D,0x20,0x64,0x61,0x74,0x61,0x62,0x61,0x73,0x65,0x20,0x32,0x2E,0x30,0x30,0x0D,0x0A};";
  (* magic.h:15 *) B "unsigned char magic_pdb2[29] = {0x4D,0x69,0x63,0x72,0x6F,0x73,0x6F,0x66,0x74,0x20,0x43,0x2F,0x43,0x2B,0x2B,0x20,0x4D,0x53,0x46,0x20,0x37,0x2E,0x30,0x30,0x0D,0x0A,0x1A,0x44,0x53};";
  (* magic.h:16 *) B "unsigned char magic_macho1[4] = {0xfe,0xed,0xfa,0xce};";
  (* magic.h:17 *) B "unsigned char magic_macho2[4] = {0xce,0xfa,0xed,0xfe};";
  (* magic.h:18 *) B "unsigned char magic_macho3[4] = {0xfe,0xed,0xfa,0xcf};";
  (* magic.h:19 *) B "unsigned char magic_macho4[4] = {0xcf,0xfa,0xed,0xfe};";
  (* magic.h:20 *) B "unsigned char magic_javaclass[4] = {0xCA,0xFE,0xBA,0xBE};";
  (* magic.h:21 *) B "unsigned char magic_zip[2] = {0x50,0x4B};";
  (* magic.h:22 *) B "unsigned char magic_rar[6] = {0x52,0x61,0x72,0x21,0x1A,0x07};";
  (* magic.h:23 *) B "unsigned char magic_7z[6] = {0x37,0x7A,0xBC,0xAF,0x27,0x1C};";
  (* magic.h:24 *) B "unsigned char magic_tarzlzw[2] = {0x1F,0x9D};";
  (* magic.h:25 *) B "unsigned char magic_tarzlzh[2] = {0x1f,0xA0};";
  (* magic.h:26 *) B "unsigned char magic_bz2[3] = {0x42,0x5A,0x68};";
  (* magic.h:27 *) B "unsigned char magic_tar2[5] = {0x75,0x73,0x74,0x61,0x72};";
  (* magic.h:28 *) B "unsigned char magic_tar[5] = {0x75,0x73,0x74,0x61,0x72};";
  (* magic.h:29 *) B "unsigned char magic_gz[2] = {0x1F,0x8B};";
  (* magic.h:30 *) B "unsigned char magic_cab[4] = {0x4D,0x53,0x43,0x46};";
  (* magic.h:31 *) B "unsigned char magic_lha[3] = {0x2D,0x6C,0x68};";
  (* magic.h:32 *) B "unsigned char magic_vhd[8] = {0x63,0x6F,0x6E,0x65,0x63,0x74,0x69,0x78};";
  (* magic.h:33 *) B "unsigned char magic_vhdx[8] = {0x76,0x68,0x64,0x78,0x66,0x69,0x6C,0x65};";
  (* magic.h:34 *) B "unsigned char magic_xz[6] = {0xFD,0x37,0x7A,0x58,0x5A,0x00};";
  (* magic.h:35 *) B "unsigned char magic_iso1[5] = {0x43,0x44,0x30,0x30,0x31};";
  (* magic.h:36 *) B "unsigned char magic_iso2[5] = {0x43,0x44,0x30,0x30,0x31};";
  (* magic.h:37 *) B "unsigned char magic_iso3[5] = {0x43,0x44,0x30,0x30,0x31};";
  (* magic.h:38 *) B "unsigned char magic_udf1[5] = {0x42,0x45,0x41,0x30,0x31};";
  (* magic.h:39 *) B "unsigned char magic_udf2[5] = {0x42,0x4F,0x4F,0x54,0x32};";
  (* magic.h:40 *) B "unsigned char magic_udf3[5] = {0x43,0x44,0x30,0x30,0x31};";
  (* magic.h:41 *) B "unsigned char magic_udf4[5] = {0x43,0x44,0x57,0x30,0x32};";
  (* magic.h:42 *) B "unsigned char magic_udf5[5] = {0x4E,0x53,0x52,0x30,0x32};";
  (* magic.h:43 *) B "unsigned char magic_udf6[5] = {0x4E,0x53,0x52,0x30,0x33};";
  (* magic.h:44 *) B "unsigned char magic_udf7[5] = {0x54,0x45,0x41,0x30,0x31};";
  (* magic.h:45 *) B "unsigned char magic_vmdk[3] = {0x4B,0x44,0x4D};";
  (* magic.h:46 *) B "unsigned char magic_pcap[4] = {0xD4,0xC3,0xB2,0xA1};";
  (* magic.h:47 *) B "unsigned char magic_pcapn[4] = {0x4D,0x3C,0xB2,0xA1};";
  (* magic.h:48 *) B "unsigned char magic_rpm[4] = {0xED,0xAB,0xEE,0xDB};";
  (* magic.h:49 *) B "unsigned char magic_dos_c1[8] = {0x53,0x5A,0x44,0x44,0x88,0xF0,0x27,0x33};";
  (* magic.h:50 *) B "unsigned char magic_dos_c2[8] = {0x4B,0x57,0x41,0x4A,0x88,0xF0,0x27,0xD1};";
  (* magic.h:51 *) B "unsigned char magic_dos_c3[8] = {0x53,0x5A,0x20,0x88,0xF0,0x27,0x33,0xD1};";
  (* magic.h:52 *) B "unsigned char magic_sdi1[8] = {0x24,0x53,0x44,0x49,0x30,0x30,0x30,0x31};";
  (* magic.h:53 *) B "unsigned char magic_wim1[7] = {0x4D,0x53,0x57,0x49,0x4D,0x00,0x00};";
  (* magic.h:54 *) B "unsigned char magic_ace1[7] = {0x2A,0x2A,0x41,0x43,0x45,0x2A,0x2A};";
  (* magic.h:55 *) B "unsigned char magic_ace2[7] = {0x2A,0x2A,0x41,0x43,0x45,0x2A,0x2A};";
  (* magic.h:56 *) B "unsigned char magic_ico[4] = {0x00,0x00,0x01,0x00};";
  (* magic.h:57 *) B "unsigned char magic_gif87[6] = {0x47,0x49,0x46,0x38,0x37,0x61};";
  (* magic.h:58 *) B "unsigned char magic_gif89[6] = {0x47,0x49,0x46,0x38,0x39,0x61};";
  (* magic.h:59 *) B "unsigned char magic_tiff_l[4] = {0x49,0x49,0x2A,0x00};";
  (* magic.h:60 *) B "unsigned char magic_tiff_b[4] = {0x4D,0x4D,0x00,0x2A};";
  (* magic.h:61 *) B "unsigned char magic_jpg[2] = {0xFF,0xD8};";
  (* magic.h:62 *) B "unsigned char magic_png[8] = {0x89,0x50,0x4E,0x47,0x0D,0x0A,0x1A,0x0A};";
  (* magic.h:63 *) B "unsigned char magic_bmp[2] = {0x42,0x4D};";
  (* magic.h:64 *) B "unsigned char magic_cur[4] = {0x00,0x00,0x02,0x00};";
  (* magic.h:65 *) B "unsigned char magic_bmpOS2a[2] = {0x42,0x41};";
  (* magic.h:66 *) B "unsigned char magic_bmpOS2ci[2] = {0x43,0x49};";
  (* magic.h:67 *) B "unsigned char magic_bmpOS2cp[2] = {0x43,0x50};";
  (* magic.h:68 *) B "unsigned char magic_bmpOS2i[2] = {0x49,0x43};";
  (* magic.h:69 *) B "unsigned char magic_bmpOS2p[2] = {0x50,0x54};";
  (* magic.h:70 *) B "unsigned char magic_psp[25] = {0x50,0x61,0x69,0x6E,0x74,0x20,0x53,0x68,0x6F,0x70,0x20,0x50,0x72,0x6F,0x20,0x49,0x6D,0x61,0x67,0x65,0x20,0x46,0x69,0x6C,0x65};";
  (* magic.h:71 *) B "unsigned char magic_jbf[15] = {0x4A,0x41,0x53,0x43,0x20,0x42,0x52,0x4F,0x57,0x53,0x20,0x46,0x49,0x4C,0x45};";
  (* magic.h:72 *) B "unsigned char magic_emf[3] = {0x45,0x4D,0x46};";
  (* magic.h:73 *) B "unsigned char magic_eps[4] = {0x45,0x50,0x53,0x46};";
  (* magic.h:74 *) B "unsigned char magic_oless[4] = {0xD0,0xCF,0x11,0xE0};";
  (* magic.h:75 *) B "unsigned char magic_ps[4] = {0x25,0x21,0x50,0x53};";
  (* magic.h:76 *) B "unsigned char magic_pdf[4] = {0x25,0x50,0x44,0x46};";
  (* magic.h:77 *) B "unsigned char magic_db[16] = {0x53,0x51,0x4C,0x69,0x74,0x65,0x20,0x66,0x6F,0x72,0x6D,0x61,0x74,0x20,0x33,0x00};";
  (* magic.h:78 *) B "unsigned char magic_dwg[4] = {0x41,0x43,0x31,0x30};";
  (* magic.h:79 *) B "unsigned char magic_lnk[20] = {0x4C,0x00,0x00,0x00,0x01,0x14,0x02,0x00,0x00,0x00,0x00,0x00,0xC0,0x00,0x00,0x00,0x00,0x00,0x00,0x46};";
  (* magic.h:80 *) B "unsigned char magic_biff2[2] = {0x09,0x00};";
  (* magic.h:81 *) B "unsigned char magic_biff3[2] = {0x09,0x02};";
  (* magic.h:82 *) B "unsigned char magic_biff4[2] = {0x09,0x04};";
  (* magic.h:83 *) B "unsigned char magic_ppt95[38] = {0x4D,0x69,0x63,0x72,0x6F,0x73,0x6F,0x66,0x74,0x20,0x28,0x52,0x29,0x20,0x50,0x6F,0x77,0x65,0x72,0x50,0x6F,0x69,0x6E,0x74,0x20,0x28,0x52,0x29,0x20,0x57,0x69,0x6E,0x64,0x6F,0x77,0x73,0x20,0x20};";
  (* magic.h:84 *) B "unsigned char magic_ppt3[4] = {0xED,0xDE,0xAD,0x0B};";
  (* magic.h:85 *) B "unsigned char magic_ppt3s[4] = {0x0B,0xAD,0xDE,0xED};";
  (* magic.h:86 *) B "unsigned char magic_mdbsys[19] = {0x00,0x01,0x00,0x00,0x4A,0x65,0x74,0x20,0x53,0x79,0x73,0x74,0x65,0x6D,0x20,0x44,0x42,0x20,0x20};";
  (* magic.h:87 *) B "unsigned char magic_mdbstd[19] = {0x00,0x01,0x00,0x00,0x53,0x74,0x61,0x6E,0x64,0x61,0x72,0x64,0x20,0x4A,0x65,0x74,0x20,0x44,0x42};";
  (* magic.h:88 *) B "unsigned char magic_mdbtmp[19] = {0x00,0x01,0x00,0x00,0x54,0x65,0x6D,0x70,0x20,0x4A,0x65,0x74,0x20,0x44,0x42,0x20,0x20,0x20,0x20};";
  (* magic.h:89 *) B "unsigned char magic_accdbsys[19] = {0x00,0x01,0x00,0x00,0x41,0x43,0x45,0x20,0x53,0x79,0x73,0x74,0x65,0x6D,0x20,0x44,0x42,0x20,0x20};";
  (* magic.h:90 *) B "unsigned char magic_accdbstd[19] = {0x00,0x01,0x00,0x00,0x53,0x74,0x61,0x6E,0x64,0x61,0x72,0x64,0x20,0x41,0x43,0x45,0x20,0x44,0x42};";
  (* magic.h:91 *) B "unsigned char magic_accdbtmp[19] = {0x00,0x01,0x00,0x00,0x54,0x65,0x6D,0x70,0x20,0x41,0x43,0x45,0x20,0x44,0x42,0x20,0x20,0x20,0x20};";
  (* magic.h:92 *) B "unsigned char magic_one[16] = {0xE4,0x52,0x5C,0x7B,0x8C,0xD8,0xA7,0x4D,0xAE,0xB1,0x53,0x78,0xD0,0x29,0x96,0xD3};";
  (* magic.h:93 *) B "unsigned char magic_onetoc[16] = {0xA1,0x2F,0xFF,0x43,0xD9,0xEF,0x76,0x4C,0x9E,0xE2,0x10,0xEA,0x57,0x22,0x76,0x5F};";
  (* magic.h:94 *) B "unsigned char magic_pst[4] = {0x21,0x42,0x44,0x4E};";
  (* magic.h:95 *) B "unsigned char magic_wab[16] = {0x9C,0xCB,0xCB,0x8D,0x13,0x75,0xD2,0x11,0x91,0x58,0x00,0xC0,0x4F,0x79,0x56,0xA4};";
  (* magic.h:96 *) B "unsigned char magic_chm[4] = {0x49,0x54,0x53,0x46};";
  (* magic.h:97 *) B "unsigned char magic_dmp32[8] = {0x50,0x41,0x47,0x45,0x44,0x55,0x4D,0x50};";
  (* magic.h:98 *) B "unsigned char magic_dmp64[8] = {0x50,0x41,0x47,0x45,0x44,0x55,0x36,0x34};";
  (* magic.h:99 *) B "unsigned char magic_hdmp[6] = {0x4D,0x44,0x4D,0x50,0x93,0xA7};";
  (* magic.h:100 *) B "unsigned char magic_rtf[5] = {0x7B,0x5C,0x72,0x74,0x66};";
  (* magic.h:101 *) B "unsigned char magic_rtf2[4] = {0x7B,0x5C,0x72,0x74};";
  (* magic.h:102 *) B "unsigned char magic_skp[32] = {0xFF,0xFE,0xFF,0x0E,0x53,0x00,0x6B,0x00,0x65,0x00,0x74,0x00,0x63,0x00,0x68,0x00,0x55,0x00,0x70,0x00,0x20,0x00,0x4D,0x00,0x6F,0x00,0x64,0x00,0x65,0x00,0x6C,0x00};";
  (* magic.h:103 *) B "unsigned char magic_mdi[4] = {0x45,0x50,0x2a,0x00};";
  (* magic.h:104 *) B "unsigned char magic_hlp1[4] = {0x3f,0x5f,0x03,0x00};";
  (* magic.h:105 *) B "unsigned char magic_hlp2[5] = {0x04,0x12,0x46,0x31,0x14};";
  (* magic.h:106 *) B "unsigned char magic_mcw1[3] = {0xfe,0x32,0x00};";
  (* magic.h:107 *) B "unsigned char magic_mcw2[3] = {0xfe,0x33,0x00};";
  (* magic.h:108 *) B "unsigned char magic_mcw3[3] = {0xfe,0x34,0x00};";
  (* magic.h:109 *) B "unsigned char magic_mcw4[8] = {0xfe,0x37,0x00,0x1c,0x00,0x00,0x00,0x00};";
  (* magic.h:110 *) B "unsigned char magic_mcw5[8] = {0xfe,0x37,0x00,0x23,0x00,0x00,0x00,0x00};";
  (* magic.h:111 *) B "unsigned char magic_pcw3[2] = {0xbe,0x31};";
  (* magic.h:112 *) B "unsigned char magic_doc_old1[2] = {0x9B,0xA5};";
  (* magic.h:113 *) B "unsigned char magic_doc_old2[2] = {0x9C,0xA5};";
  (* magic.h:114 *) B "unsigned char magic_doc_old3[2] = {0x08,0xEC};";
  (* magic.h:115 *) B "unsigned char magic_doc_old4[2] = {0x08,0xED};";
  (* magic.h:116 *) B "unsigned char magic_doc_old6[2] = {0xDB,0xA5};";
  (* magic.h:117 *) B "unsigned char magic_wri1[2] = {0x31,0xBE};";
  (* magic.h:118 *) B "unsigned char magic_wri2[2] = {0x32,0xBE};";
  (* magic.h:119 *) B "unsigned char magic_wri3[5] = {0xBE,0x00,0x00,0x00,0xAB};";
  (* magic.h:120 *) B "unsigned char magic_wps[2] = {0x01,0xFE};";
  (* magic.h:121 *) B "unsigned char magic_wp5[4] = {0xFF,0x57,0x50,0x43};";
  (* magic.h:122 *) B "unsigned char magic_wpenc[4] = {0xff,0xff,0x61,0x61};";
  (* magic.h:123 *) B "unsigned char magic_mp4[4] = {0x66,0x74,0x79,0x70};";
  (* magic.h:124 *) B "unsigned char magic_asf[16] = {0x30,0x26,0xB2,0x75,0x8E,0x66,0xCF,0x11,0xA6,0xD9,0x00,0xAA,0x00,0x62,0xCE,0x6C};";
  (* magic.h:125 *) B "unsigned char magic_riff[4] = {0x52,0x49,0x46,0x46};";
  (* magic.h:126 *) B "unsigned char magic_mp3[2] = {0xFF,0xFB};";
  (* magic.h:127 *) B "unsigned char magic_mp3id3v2[3] = {0x49,0x44,0x33};";
  (* magic.h:128 *) B "unsigned char magic_flv[3] = {0x46,0x4C,0x56};";
  (* magic.h:129 *) B "unsigned char magic_swf[3] = {0x46,0x57,0x53};";
  (* magic.h:130 *) B "unsigned char magic_cwf[3] = {0x43,0x57,0x53};";
  (* magic.h:131 *) B "unsigned char magic_flac[4] = {0x66,0x4C,0x61,0x43};";
  (* magic.h:132 *) B "unsigned char magic_midi[4] = {0x4D,0x54,0x68,0x64};";
  (* magic.h:133 *) B "unsigned char magic_woff1[4] = {0x77,0x4f,0x46,0x46};";
  (* magic.h:134 *) B "unsigned char magic_woff2[4] = {0x77,0x4f,0x46,0x32};";
  (* magic.h:135 *) B "unsigned char magic_otf[4] = {0x4F,0x54,0x54,0x4F};";
  (* magic.h:136 *) B "unsigned char magic_pfm[4] = {0x74,0x79,0x70,0x31};";
  (* magic.h:137 *) B "unsigned char magic_ttf1[4] = {0x74,0x72,0x75,0x65};";
  (* magic.h:138 *) B "unsigned char magic_ttf2[4] = {0x00,0x01,0x00,0x00};";
  (* magic.h:139 *) B "unsigned char magic_sh[2] = {0x23,0x21};";
  (* magic.h:140 *) B "unsigned char magic_xml_al[5] = {0x3C,0x3F,0x78,0x6D,0x6C};";
  (* magic.h:141 *) B "unsigned char magic_xml_au[5] = {0x3C,0x3F,0x58,0x4D,0x4C};";
  (* magic.h:142 *) B "unsigned char magic_xml_8l[8] = {0xEF,0xBB,0xBF,0x3C,0x3F,0x78,0x6D,0x6C};";
  (* magic.h:143 *) B "unsigned char magic_xml_8u[8] = {0xEF,0xBB,0xBF,0x3C,0x3F,0x58,0x4D,0x4C};";
  (* magic.h:144 *) B "unsigned char magic_xml_ul[12] = {0xFF,0xFE,0x3C,0x00,0x3F,0x00,0x78,0x00,0x6D,0x00,0x6C,0x00};";
  (* magic.h:145 *) B "unsigned char magic_xml_uu[12] = {0xFF,0xFE,0x3C,0x00,0x3F,0x00,0x58,0x00,0x4D,0x00,0x4C,0x00};";
  (* magic.h:146 *) B "unsigned char magic_html_hal[5] = {0x3C,0x68,0x74,0x6D,0x6C};";
  (* magic.h:147 *) B "unsigned char magic_html_dal[5] = {0x3C,0x21,0x64,0x6F,0x63};";
  (* magic.h:148 *) B "unsigned char magic_html_hul[12] = {0xFF,0xFE,0x3C,0x00,0x68,0x00,0x74,0x00,0x6D,0x00,0x6C,0x00};";
  (* magic.h:149 *) B "unsigned char magic_html_dul[12] = {0xFF,0xFE,0x3C,0x00,0x21,0x00,0x64,0x00,0x6F,0x00,0x63,0x00};";
  (* magic.h:150 *) B "unsigned char magic_html_hau[5] = {0x3C,0x48,0x54,0x4d,0x4c};";
  (* magic.h:151 *) B "unsigned char magic_html_dau[5] = {0x3C,0x21,0x44,0x4f,0x43};";
  (* magic.h:152 *) B "unsigned char magic_html_huu[12] = {0xFF,0xFE,0x3C,0x00,0x48,0x00,0x54,0x00,0x4D,0x00,0x4C,0x00};";
  (* magic.h:153 *) B "unsigned char magic_html_duu[12] = {0xFF,0xFE,0x3C,0x00,0x21,0x00,0x44,0x00,0x4F,0x00,0x43,0x00};";
  (* magic.h:154 *) B "unsigned char magic_html_h8l[8] = {0xEF,0xBB,0xBF,0x3C,0x68,0x74,0x6D,0x6C};";
  (* magic.h:155 *) B "unsigned char magic_html_d8l[8] = {0xEF,0xBB,0xBF,0x3C,0x21,0x64,0x6F,0x63};";
  (* magic.h:156 *) B "unsigned char magic_html_h8u[8] = {0xEF,0xBB,0xBF,0x3C,0x48,0x54,0x4d,0x4c};";
  (* magic.h:157 *) B "unsigned char magic_html_d8u[8] = {0xEF,0xBB,0xBF,0x3C,0x21,0x44,0x4f,0x43};";
  (* magic.h:158 *) B "unsigned char magic_slk1[4] = {0x49,0x44,0x3B,0x50};";
  (* magic.h:159 *) B "unsigned char magic_vbe[4] = {0x23,0x40,0x7E,0x5E};"].

Definition magic_entries : list bytes := [
  (* magic.h:164 *) B "list.push_back(new common::MagicInfo(""exe"", ""DOS Executable"", """", 0, 2, magic_dosexe, Exec::Detailer));";
  (* magic.h:165 *) B "list.push_back(new common::MagicInfo(""elf"", ""ELF Executable"", """", 0, 4, magic_elf, nullptr));";
  (* magic.h:166 *) B "list.push_back(new common::MagicInfo(""dex"", ""Dalvik Executable"", """", 0, 6, magic_dex, nullptr));";
  (* magic.h:167 *) B "list.push_back(new common::MagicInfo(""lib"", ""Microsoft Program Library Common Object File Format"", """", 0, 8, magic_lib, nullptr));";
  (* magic.h:168 *) B "list.push_back(new common::MagicInfo(""obj"", ""Microsoft Common Object File Format relocatable object code"", """", 0, 2, magic_obj, nullptr));";
  (* magic.h:169 *) B "list.push_back(new common::MagicInfo(""pdb"", ""Microsoft Program Database 2.0"", ""2"", 0, 39, magic_pdb1, nullptr));";
  (* magic.h:170 *) B "list.push_back(new common::MagicInfo(""pdb"", ""Microsoft Program Database 7.0"", ""7"", 0, 29, magic_pdb2, nullptr));";
  (* magic.h:171 *) B "list.push_back(new common::MagicInfo(""o"", ""Mach-O Executable"", ""32-bit, big-endian"", 0, 4, magic_macho1, Exec::MachO::Detailer));";
  (* magic.h:172 *) B "list.push_back(new common::MagicInfo(""o"", ""Mach-O Executable"", ""32-bit, little-endian"", 0, 4, magic_macho2, Exec::MachO::Detailer));";
  (* magic.h:173 *) B "list.push_back(new common::MagicInfo(""o"", ""Mach-O Executable"", ""64-bit, big-endian"", 0, 4, magic_macho3, Exec::MachO::Detailer));";
  (* magic.h:174 *) B "list.push_back(new common::MagicInfo(""o"", ""Mach-O Executable"", ""64-bit, little-endian"", 0, 4, magic_macho4, Exec::MachO::Detailer));";
  (* magic.h:175 *) B "list.push_back(new common::MagicInfo(""class"", ""Java Class File"", """", 0, 4, magic_javaclass, nullptr));";
  (* magic.h:176 *) B "list.push_back(new common::MagicInfo(""zip"", ""Zip Archive"", """", 0, 2, magic_zip, zip::Detailer));";
  (* magic.h:177 *) B "list.push_back(new common::MagicInfo(""rar"", ""Rar Archive"", """", 0, 6, magic_rar, nullptr));";
  (* magic.h:178 *) B "list.push_back(new common::MagicInfo(""7z"", ""7z Archive"", """", 0, 6, magic_7z, nullptr));";
  (* magic.h:179 *) B "list.push_back(new common::MagicInfo(""tar.z"", ""Tar.Zip Container"", ""LZW Compression"", 0, 2, magic_tarzlzw, nullptr));";
  (* magic.h:180 *) B "list.push_back(new common::MagicInfo(""tar.z"", ""Tar.Zip Container"", ""LZH Compression"", 0, 2, magic_tarzlzh, nullptr));";
  (* magic.h:181 *) B "list.push_back(new common::MagicInfo(""bz2"", ""BZip2 Container"", """", 0, 3, magic_bz2, nullptr));";
  (* magic.h:182 *) B "list.push_back(new common::MagicInfo(""tar"", ""TAR Container"", """", 257, 5, magic_tar2, nullptr));";
  (* magic.h:183 *) B "list.push_back(new common::MagicInfo(""tar"", ""Tar Archive"", """", 0, 5, magic_tar, nullptr));";
  (* magic.h:184 *) B "list.push_back(new common::MagicInfo(""gz"", ""GZIP Archive"", """", 0, 2, magic_gz, nullptr));";
  (* magic.h:185 *) B "list.push_back(new common::MagicInfo(""cab"", ""Microsoft Cabinet file"", """", 0, 4, magic_cab, nullptr));";
  (* magic.h:186 *) B "list.push_back(new common::MagicInfo(""lha"", ""LHArc (lha/lzh) Archive"", """", 2, 3, magic_lha, nullptr));";
  (* magic.h:187 *) B "list.push_back(new common::MagicInfo(""vhd"", ""Microsoft Virtual HardDisk"", """", 0, 8, magic_vhd, nullptr));";
  (* magic.h:188 *) B "list.push_back(new common::MagicInfo(""vhdx"", ""Microsoft Virtual HardDisk v2"", """", 0, 8, magic_vhdx, nullptr));";
  (* magic.h:189 *) B "list.push_back(new common::MagicInfo(""xz"", ""XZ Compressed File"", """", 0, 6, magic_xz, nullptr));";
  (* magic.h:190 *) B "list.push_back(new common::MagicInfo(""iso"", ""ISO 9660 Disk Image"", """", 32769, 5, magic_iso1, nullptr));";
  (* magic.h:191 *) B "list.push_back(new common::MagicInfo(""iso"", ""ISO 9660 Disk Image"", """", 34817, 5, magic_iso2, nullptr));";
  (* magic.h:192 *) B "list.push_back(new common::MagicInfo(""iso"", ""ISO 9660 Disk Image"", """", 36864, 5, magic_iso3, nullptr));";
  (* magic.h:193 *) B "list.push_back(new common::MagicInfo(""iso"", ""Universal Disk Format (ISO 13490/Ecma-168) - Beginning Extended Area Descriptor"", """", 32769, 5, magic_udf1, nullptr));";
  (* magic.h:194 *) B "list.push_back(new common::MagicInfo(""iso"", ""Universal Disk Format (ISO 13490/Ecma-168) - Boot Descriptor"", """", 32769, 5, magic_udf2, nullptr));";
  (* magic.h:195 *) B "list.push_back(new common::MagicInfo(""iso"", ""Universal Disk Format (ISO 13490/Ecma-168) - CD001 - ECMA-119"", """", 32769, 5, magic_udf3, nullptr));";
  (* magic.h:196 *) B "list.push_back(new common::MagicInfo(""iso"", ""Universal Disk Format (ISO 13490/Ecma-168) - Volume Descriptor"", """", 32769, 5, magic_udf4, nullptr));";
  (* magic.h:197 *) B "list.push_back(new common::MagicInfo(""iso"", ""Universal Disk Format (ISO 13490/Ecma-168) - NSR02 - ECMA-168"", """", 32769, 5, magic_udf5, nullptr));";
  (* magic.h:198 *) B "list.push_back(new common::MagicInfo(""iso"", ""Universal Disk Format (ISO 13490/Ecma-168) - NSR03 - ECMA-167"", """", 32769, 5, magic_udf6, nullptr));";
  (* magic.h:199 *) B "list.push_back(new common::MagicInfo(""iso"", ""Universal Disk Format (ISO 13490/Ecma-168) - Terminating Extended Area Descriptor"", """", 32769, 5, magic_udf7, nullptr));";
  (* magic.h:200 *) B "list.push_back(new common::MagicInfo(""vmdk"", ""VMWare Virtual Disk"", """", 0, 3, magic_vmdk, nullptr));";
  (* magic.h:201 *) B "list.push_back(new common::MagicInfo(""pcap"", ""Network Packet Capture File"", """", 0, 4, magic_pcap, nullptr));";
  (* magic.h:202 *) B "list.push_back(new common::MagicInfo(""pcap"", ""Network Packet Capture File"", ""Nanosecond-precision timestamps"", 0, 4, magic_pcapn, nullptr));";
  (* magic.h:203 *) B "list.push_back(new common::MagicInfo(""rpm"", ""Red Hat Package Manager File"", """", 0, 4, magic_rpm, nullptr));";
  (* magic.h:204 *) B "list.push_back(new common::MagicInfo(""_"", ""MS-DOS Installtion Compressed File"", ""SZDD"", 0, 8, magic_dos_c1, nullptr));";
  (* magic.h:205 *) B "list.push_back(new common::MagicInfo(""_"", ""MS-DOS Installtion Compressed File"", ""KWAJ"", 0, 8, magic_dos_c2, nullptr));";
  (* magic.h:206 *) B "list.push_back(new common::MagicInfo(""_"", ""MS-DOS Installtion Compressed File"", ""QBasic SZDD"", 0, 8, magic_dos_c3, nullptr));";
  (* magic.h:207 *) B "list.push_back(new common::MagicInfo(""sdi"", ""Microsoft System Deployment Image"", """", 0, 8, magic_sdi1, nullptr));";
  (* magic.h:208 *) B "list.push_back(new common::MagicInfo(""wim"", ""Windows Imaging File Format"", """", 0, 7, magic_wim1, nullptr));";
  (* magic.h:209 *) B "list.push_back(new common::MagicInfo(""ace"", ""ACE Archive"", """", 7, 7, magic_ace1, nullptr));";
  (* magic.h:210 *) B "list.push_back(new common::MagicInfo(""ace"", ""ACE Archive"", """", 0, 7, magic_ace2, nullptr));";
  (* magic.h:211 *) B "list.push_back(new common::MagicInfo(""ico"", ""Icon File"", """", 0, 4, magic_ico, nullptr));";
  (* magic.h:212 *) B "list.push_back(new common::MagicInfo(""gif"", ""GIF Image"", ""GIF87a"", 0, 6, magic_gif87, nullptr));";
  (* magic.h:213 *) B "list.push_back(new common::MagicInfo(""gif"", ""GIF Image"", ""GIF89a"", 0, 6, magic_gif89, nullptr));";
  (* magic.h:214 *) B "list.push_back(new common::MagicInfo(""tiff"", ""Tagged Image File"", ""little endian"", 0, 4, magic_tiff_l, nullptr));";
  (* magic.h:215 *) B "list.push_back(new common::MagicInfo(""tiff"", ""Tagged Image File"", ""big endian"", 0, 4, magic_tiff_b, nullptr));";
  (* magic.h:216 *) B "list.push_back(new common::MagicInfo(""jpg"", ""JPEG Image"", """", 0, 2, magic_jpg, media::jpeg::Detailer));";
  (* magic.h:217 *) B "list.push_back(new common::MagicInfo(""png"", ""Portable Network Graphics"", """", 0, 8, magic_png, nullptr));";
  (* magic.h:218 *) B "list.push_back(new common::MagicInfo(""bmp"", ""Bitmap Image"", """", 0, 2, magic_bmp, nullptr));";
  (* magic.h:219 *) B "list.push_back(new common::MagicInfo(""cur"", ""Cursor"", """", 0, 4, magic_cur, nullptr));";
  (* magic.h:220 *) B "list.push_back(new common::MagicInfo(""bmp"", ""Bitmap Image"", ""OS/2 Array"", 0, 2, magic_bmpOS2a, nullptr));";
  (* magic.h:221 *) B "list.push_back(new common::MagicInfo(""bmp"", ""Bitmap Image"", ""OS/2 Color Icon"", 0, 2, magic_bmpOS2ci, nullptr));";
  (* magic.h:222 *) B "list.push_back(new common::MagicInfo(""bmp"", ""Bitmap Image"", ""OS/2 Color Pointer"", 0, 2, magic_bmpOS2cp, nullptr));";
  (* magic.h:223 *) B "list.push_back(new common::MagicInfo(""bmp"", "" Bitmap Icon"", ""OS/2 Icon"", 0, 2, magic_bmpOS2i, nullptr));";
  (* magic.h:224 *) B "list.push_back(new common::MagicInfo(""bmp"", ""Bitmap Image"", ""OS/2 Pointer"", 0, 2, magic_bmpOS2p, nullptr));";
  (* magic.h:225 *) B "list.push_back(new common::MagicInfo(""psp"", ""Corel Paint Shop Pro Image file"", """", 0, 25, magic_psp, nullptr));";
  (* magic.h:226 *) B "list.push_back(new common::MagicInfo(""jbf"", ""Corel Paint Shop Pro browse file"", """", 0, 15, magic_jbf, nullptr));";
  (* magic.h:227 *) B "list.push_back(new common::MagicInfo(""emf"", ""Microsoft Enchanced Metafile"", """", 41, 3, magic_emf, nullptr));";
  (* magic.h:228 *) B "list.push_back(new common::MagicInfo(""eps"", ""Encapsulated PostScript"", """", 41, 4, magic_eps, nullptr));";
  (* magic.h:229 *) B "list.push_back(new common::MagicInfo(""oless"", ""OLE Structured Storage"", """", 0, 4, magic_oless, oless::Detailer));";
  (* magic.h:230 *) B "list.push_back(new common::MagicInfo(""ps"", ""PostScript document"", """", 0, 4, magic_ps, nullptr));";
  (* magic.h:231 *) B "list.push_back(new common::MagicInfo(""pdf"", ""PDF document"", """", 0, 4, magic_pdf, nullptr));";
  (* magic.h:232 *) B "list.push_back(new common::MagicInfo(""db"", ""SQLLite Database File"", """", 0, 16, magic_db, nullptr));";
  (* magic.h:233 *) B "list.push_back(new common::MagicInfo(""dwg"", ""Autocad Drawing"", """", 0, 4, magic_dwg, document::dwg::DwgHelper));";
  (* magic.h:234 *) B "list.push_back(new common::MagicInfo(""lnk"", ""LNK File"", """", 0, 20, magic_lnk, nullptr));";
  (* magic.h:235 *) B "list.push_back(new common::MagicInfo(""xls"", ""Microsoft Excel"", ""BIFF2"", 0, 2, magic_biff2, nullptr));";
  (* magic.h:236 *) B "list.push_back(new common::MagicInfo(""xls"", ""Microsoft Excel"", ""BIFF3"", 0, 2, magic_biff3, nullptr));";
  (* magic.h:237 *) B "list.push_back(new common::MagicInfo(""xls"", ""Microsoft Excel"", ""BIFF4"", 0, 2, magic_biff4, nullptr));";
  (* magic.h:238 *) B "list.push_back(new common::MagicInfo(""ppt"", ""Microsoft Powerpoint"", ""PPT95"", 0, 38, magic_ppt95, nullptr));";
  (* magic.h:239 *) B "list.push_back(new common::MagicInfo(""ppt"", ""Microsoft Powerpoint"", ""PPT3"", 0, 4, magic_ppt3, nullptr));";
  (* magic.h:240 *) B "list.push_back(new common::MagicInfo(""ppt"", ""Microsoft Powerpoint"", ""PPT3 Swap"", 0, 4, magic_ppt3s, nullptr));";
  (* magic.h:241 *) B "list.push_back(new common::MagicInfo(""mdb"", ""Microsoft Access Database"", ""MDB_System"", 0, 19, magic_mdbsys, nullptr));";
  (* magic.h:242 *) B "list.push_back(new common::MagicInfo(""mdb"", ""Microsoft Access Database"", ""MDB_Standard"", 0, 19, magic_mdbstd, nullptr));";
  (* magic.h:243 *) B "list.push_back(new common::MagicInfo(""mdb"", ""Microsoft Access Database"", ""MDB_Temp"", 0, 19, magic_mdbtmp, nullptr));";
  (* magic.h:244 *) B "list.push_back(new common::MagicInfo(""accdb"", ""Microsoft Access Database"", ""ACCDB_System"", 0, 19, magic_accdbsys, nullptr));";
  (* magic.h:245 *) B "list.push_back(new common::MagicInfo(""accdb"", ""Microsoft Access Database"", ""ACCDB_Standard"", 0, 19, magic_accdbstd, nullptr));";
  (* magic.h:246 *) B "list.push_back(new common::MagicInfo(""accdb"", ""Microsoft Access Database"", ""ACCDB_Temp"", 0, 19, magic_accdbtmp, nullptr));";
  (* magic.h:247 *) B "list.push_back(new common::MagicInfo(""one"", ""Microsoft OneNote"", """", 0, 16, magic_one, nullptr));";
  (* magic.h:248 *) B "list.push_back(new common::MagicInfo(""onetoc2"", ""Microsoft OneNote Table of Contents"", """", 0, 16, magic_onetoc, nullptr));";
  (* magic.h:249 *) B "list.push_back(new common::MagicInfo(""pst"", ""Microsoft Outlook Personal Storage Table"", """", 0, 4, magic_pst, nullptr));";
  (* magic.h:250 *) B "list.push_back(new common::MagicInfo(""wab"", ""Microsoft Outlook Address File"", """", 0, 16, magic_wab, nullptr));";
  (* magic.h:251 *) B "list.push_back(new common::MagicInfo(""chm"", ""Complied Help File"", """", 0, 4, magic_chm, nullptr));";
  (* magic.h:252 *) B "list.push_back(new common::MagicInfo(""dmp"", ""Windows Dump File"", ""32-bit"", 0, 8, magic_dmp32, nullptr));";
  (* magic.h:253 *) B "list.push_back(new common::MagicInfo(""dmp"", ""Windows Dump File"", ""64-bit"", 0, 8, magic_dmp64, nullptr));";
  (* magic.h:254 *) B "list.push_back(new common::MagicInfo(""hdmp"", ""Windows Dump File"", ""with heap"", 0, 6, magic_hdmp, nullptr));";
  (* magic.h:255 *) B "list.push_back(new common::MagicInfo(""rtf"", ""Rich Text Format"", """", 0, 5, magic_rtf, nullptr));";
  (* magic.h:256 *) B "list.push_back(new common::MagicInfo(""rtf"", ""Rich Text ormat (missing F)"", """", 0, 4, magic_rtf2, nullptr));";
  (* magic.h:257 *) B "list.push_back(new common::MagicInfo(""skp"", ""SketchUp Model"", """", 0, 32, magic_skp, nullptr));";
  (* magic.h:258 *) B "list.push_back(new common::MagicInfo(""mdi"", ""Microsoft Office Document Imaging"", """", 0, 4, magic_mdi, nullptr));";
  (* magic.h:259 *) B "list.push_back(new common::MagicInfo(""hlp"", ""Microsoft Help File"", """", 0, 4, magic_hlp1, nullptr));";
  (* magic.h:260 *) B "list.push_back(new common::MagicInfo(""hlp"", ""Ubuntu Help File"", """", 0, 5, magic_hlp2, nullptr));";
  (* magic.h:261 *) B "list.push_back(new common::MagicInfo(""doc"", ""Microsoft Word for Macintosh 1.0"", ""1"", 0, 3, magic_mcw1, nullptr));";
  (* magic.h:262 *) B "list.push_back(new common::MagicInfo(""doc"", ""Microsoft Word for Macintosh 2.0"", ""2"", 0, 3, magic_mcw2, nullptr));";
  (* magic.h:263 *) B "list.push_back(new common::MagicInfo(""doc"", ""Microsoft Word for Macintosh 3.0"", ""3"", 0, 3, magic_mcw3, nullptr));";
  (* magic.h:264 *) B "list.push_back(new common::MagicInfo(""doc"", ""Microsoft Word for Macintosh 4.0"", ""4"", 0, 8, magic_mcw4, nullptr));";
  (* magic.h:265 *) B "list.push_back(new common::MagicInfo(""doc"", ""Microsoft Word for Macintosh 5.0"", ""5"", 0, 8, magic_mcw5, nullptr));";
  (* magic.h:266 *) B "list.push_back(new common::MagicInfo(""doc"", ""Microsoft PC Word"", ""3"", 0, 2, magic_pcw3, nullptr));";
  (* magic.h:267 *) B "list.push_back(new common::MagicInfo(""doc"", ""Microsoft Word OLD"", """", 0, 2, magic_doc_old1, nullptr));";
  (* magic.h:268 *) B "list.push_back(new common::MagicInfo(""doc"", ""Microsoft Word OLD"", """", 0, 2, magic_doc_old2, nullptr));";
  (* magic.h:269 *) B "list.push_back(new common::MagicInfo(""doc"", ""Microsoft Word OLD (MP 2.0)"", """", 0, 2, magic_doc_old3, nullptr));";
  (* magic.h:270 *) B "list.push_back(new common::MagicInfo(""doc"", ""Microsoft Word OLD (MP 3.0)"", """", 0, 2, magic_doc_old4, nullptr));";
  (* magic.h:271 *) B "list.push_back(new common::MagicInfo(""doc"", ""Microsoft WinWord 2.0"", """", 0, 2, magic_doc_old6, nullptr));";
  (* magic.h:272 *) B "list.push_back(new common::MagicInfo(""wri"", ""MS Write"", ""1"", 0, 2, magic_wri1, nullptr));";
  (* magic.h:273 *) B "list.push_back(new common::MagicInfo(""wri"", ""MS Write"", ""2"", 0, 2, magic_wri2, nullptr));";
  (* magic.h:274 *) B "list.push_back(new common::MagicInfo(""wri"", ""MS Write"", ""3"", 0, 5, magic_wri3, nullptr));";
  (* magic.h:275 *) B "list.push_back(new common::MagicInfo(""wps"", ""Microsoft Works (1-4)"", """", 0, 2, magic_wps, nullptr));";
  (* magic.h:276 *) B "list.push_back(new common::MagicInfo(""wp5"", ""WordPerfect File"", ""5"", 0, 4, magic_wp5, document::wp::Detailer));";
  (* magic.h:277 *) B "list.push_back(new common::MagicInfo(""wp"", ""WordPerfect Encrypted File"", ""encrypted"", 0, 4, magic_wpenc, document::wp::Detailer));";
  (* magic.h:278 *) B "list.push_back(new common::MagicInfo(""mp4"", ""Mp4 Container"", """", 4, 4, magic_mp4, media::mp4::Detailer));";
  (* magic.h:279 *) B "list.push_back(new common::MagicInfo(""asf"", ""ASF Container"", """", 0, 16, magic_asf, media::asf::Detailer));";
  (* magic.h:280 *) B "list.push_back(new common::MagicInfo(""riff"", ""Riff file"", """", 0, 4, magic_riff, media::riff::RIFFHelper));";
  (* magic.h:281 *) B "list.push_back(new common::MagicInfo(""mp3"", ""MPEG-1 Layer 3 file"", """", 0, 2, magic_mp3, nullptr));";
  (* magic.h:282 *) B "list.push_back(new common::MagicInfo(""mp3"", ""MPEG-1 Layer 3 file"", ""ID3v2 Tag"", 0, 3, magic_mp3id3v2, nullptr));";
  (* magic.h:283 *) B "list.push_back(new common::MagicInfo(""flv"", ""Flash Video"", """", 0, 3, magic_flv, nullptr));";
  (* magic.h:284 *) B "list.push_back(new common::MagicInfo(""swf"", ""Shockwave Flash File"", """", 0, 3, magic_swf, nullptr));";
  (* magic.h:285 *) B "list.push_back(new common::MagicInfo(""swf"", ""Shockwave Flash File"", ""compressed"", 0, 3, magic_cwf, nullptr));";
  (* magic.h:286 *) B "list.push_back(new common::MagicInfo(""flac"", ""Free Lossless Audio Codec"", """", 0, 4, magic_flac, nullptr));";
  (* magic.h:287 *) B "list.push_back(new common::MagicInfo(""midi"", ""MIDI Sound File"", """", 0, 4, magic_midi, nullptr));";
  (* magic.h:288 *) B "list.push_back(new common::MagicInfo(""woff"", ""Web Open Font Format"", ""1.0"", 0, 4, magic_woff1, nullptr));";
  (* magic.h:289 *) B "list.push_back(new common::MagicInfo(""woff"", ""Web Open Font Format"", ""2.0"", 0, 4, magic_woff2, nullptr));";
  (* magic.h:290 *) B "list.push_back(new common::MagicInfo(""otf"", ""Open Type Font"", """", 0, 4, magic_otf, nullptr));";
  (* magic.h:291 *) B "list.push_back(new common::MagicInfo(""pfm"", ""Postscript Font"", ""type1"", 0, 4, magic_pfm, nullptr));";
  (* magic.h:292 *) B "list.push_back(new common::MagicInfo(""ttf"", ""True Type Font"", ""OSx"", 0, 4, magic_ttf1, nullptr));";
  (* magic.h:293 *) B "list.push_back(new common::MagicInfo(""ttf"", ""True Type Font"", ""windows"", 0, 4, magic_ttf2, nullptr));";
  (* magic.h:294 *) B "list.push_back(new common::MagicInfo(""sh"", ""*nix shebang script"", """", 0, 2, magic_sh, nullptr));";
  (* magic.h:295 *) B "list.push_back(new common::MagicInfo(""xml"", ""XML"", ""ascii lowercase"", 0, 5, magic_xml_al, nullptr));";
  (* magic.h:296 *) B "list.push_back(new common::MagicInfo(""xml"", ""XML"", ""ascii uppercase"", 0, 5, magic_xml_au, nullptr));";
  (* magic.h:297 *) B "list.push_back(new common::MagicInfo(""xml"", ""XML"", ""utf8 lowercase"", 0, 8, magic_xml_8l, nullptr));";
  (* magic.h:298 *) B "list.push_back(new common::MagicInfo(""xml"", ""XML"", ""utf8 uppercase"", 0, 8, magic_xml_8u, nullptr));";
  (* magic.h:299 *) B "list.push_back(new common::MagicInfo(""xml"", ""XML"", ""unicode lowercase"", 0, 12, magic_xml_ul, nullptr));";
  (* magic.h:300 *) B "list.push_back(new common::MagicInfo(""xml"", ""XML"", ""unicode uppercase"", 0, 12, magic_xml_uu, nullptr));";
  (* magic.h:301 *) B "list.push_back(new common::MagicInfo(""html"", ""HTML Document"", ""ascii lowercase html"", 0, 5, magic_html_hal, nullptr));";
  (* magic.h:302 *) B "list.push_back(new common::MagicInfo(""html"", ""HTML Document"", ""ascii lowercase doctype"", 0, 5, magic_html_dal, nullptr));";
  (* magic.h:303 *) B "list.push_back(new common::MagicInfo(""html"", ""HTML Document"", ""unicode lowercase html"", 0, 12, magic_html_hul, nullptr));";
  (* magic.h:304 *) B "list.push_back(new common::MagicInfo(""html"", ""HTML Document"", ""unicode lowercase doctype"", 0, 12, magic_html_dul, nullptr));";
  (* magic.h:305 *) B "list.push_back(new common::MagicInfo(""html"", ""HTML Document"", ""ascii uppercase html"", 0, 5, magic_html_hau, nullptr));";
  (* magic.h:306 *) B "list.push_back(new common::MagicInfo(""html"", ""HTML Document"", ""ascii uppercase doctype"", 0, 5, magic_html_dau, nullptr));";
  (* magic.h:307 *) B "list.push_back(new common::MagicInfo(""html"", ""HTML Document"", ""unicode uppercase html"", 0, 12, magic_html_huu, nullptr));";
  (* magic.h:308 *) B "list.push_back(new common::MagicInfo(""html"", ""HTML Document"", ""unicode uppercase doctype"", 0, 12, magic_html_duu, nullptr));";
  (* magic.h:309 *) B "list.push_back(new common::MagicInfo(""html"", ""HTML Document"", ""utf8 lowercase html"", 0, 8, magic_html_h8l, nullptr));";
  (* magic.h:310 *) B "list.push_back(new common::MagicInfo(""html"", ""HTML Document"", ""utf8 lowercase doctype"", 0, 8, magic_html_d8l, nullptr));";
  (* magic.h:311 *) B "list.push_back(new common::MagicInfo(""html"", ""HTML Document"", ""utf8 uppercase html"", 0, 8, magic_html_h8u, nullptr));";
  (* magic.h:312 *) B "list.push_back(new common::MagicInfo(""html"", ""HTML Document"", ""utf8 uppercase doctype"", 0, 8, magic_html_d8u, nullptr));";
  (* magic.h:313 *) B "list.push_back(new common::MagicInfo(""slk"", ""Microsoft SYLK (Symbolic Link) file"", """", 0, 4, magic_slk1, nullptr));";
  (* magic.h:314 *) B "list.push_back(new common::MagicInfo(""vbe"", ""Microsoft Encoded Script (JScript.Encoded)"", """", 0, 4, magic_vbe, nullptr));"].

Definition ole_entries : list bytes := [
  (* olessmagic.h:13 *) B "list.push_back(new oless::OlessInfo(""irm"",""Microsoft Office Information Rights Managed File"","""",""drm"",false,L""/DRMContent"",nullptr));";
  (* olessmagic.h:14 *) B "list.push_back(new oless::OlessInfo(""irm"",""Microsoft Office Encrypted Office File"","""",""encrypted"",false,L""/\u0006DataSpaces/DataSpaceMap"",nullptr));";
  (* olessmagic.h:15 *) B "list.push_back(new oless::OlessInfo(""doc"",""Microsoft Office Word File"","""","""",false,L""/WordDocument"",document::word::Detailer));";
  (* olessmagic.h:16 *) B "list.push_back(new oless::OlessInfo(""xls"",""Microsoft Office Excel File"","""","""",true,L""/Workbook"",oless::excel::Detailer));";
  (* olessmagic.h:17 *) B "list.push_back(new oless::OlessInfo(""xls"",""Microsoft Office Excel File"","""","""",true,L""/Book"",oless::excel::Detailer));";
  (* olessmagic.h:18 *) B "list.push_back(new oless::OlessInfo(""ppt"",""Microsoft Office PowerPoint File"","""","""",false,L""/PowerPoint Document"",document::powerpoint::Detailer));";
  (* olessmagic.h:19 *) B "list.push_back(new oless::OlessInfo(""ppt"",""Microsoft Office PowerPoint File"",""Powerpoint 4.0"","""",false,L""/PP40"",nullptr));";
  (* olessmagic.h:20 *) B "list.push_back(new oless::OlessInfo(""pub"",""Microsoft Office Publisher File"","""","""",false,L""/Contents"",document::publisher::Detailer));";
  (* olessmagic.h:21 *) B "list.push_back(new oless::OlessInfo(""vsd"",""Microsoft Office Visio File"","""","""",false,L""/VisioDocument"",document::visio::Detailer));";
  (* olessmagic.h:22 *) B "list.push_back(new oless::OlessInfo(""msg"",""Microsoft Office Outlook Mail Message"","""","""",false,L""/__properties_version1.0"",nullptr));";
  (* olessmagic.h:23 *) B "list.push_back(new oless::OlessInfo(""obd"",""Microsoft Office Binder"","""","""",false,L""/Binder"",nullptr));";
  (* olessmagic.h:24 *) B "list.push_back(new oless::OlessInfo(""mpp"",""Microsoft Project File"",""Project 9"",""Office 2003"",false,L""/Props9"",nullptr));";
  (* olessmagic.h:25 *) B "list.push_back(new oless::OlessInfo(""mpp"",""Microsoft Project File"",""Project 12"",""Office 2007"",false,L""/Props12"",nullptr));";
  (* olessmagic.h:26 *) B "list.push_back(new oless::OlessInfo(""mpp"",""Microsoft Project File"",""Project 14"",""Office 2010"",false,L""/Props14"",nullptr));";
  (* olessmagic.h:27 *) B "list.push_back(new oless::OlessInfo(""bup"",""McAfee Quarantied File"","""","""",false,L""/Details"",nullptr));";
  (* olessmagic.h:28 *) B "list.push_back(new oless::OlessInfo(""wps"",""Microsoft Works File"","""","""",false,L""/CONTENTS"",nullptr));";
  (* olessmagic.h:29 *) B "list.push_back(new oless::OlessInfo(""wps"",""Microsoft Works File"","""","""",false,L""/MatOST"",nullptr));";
  (* olessmagic.h:30 *) B "list.push_back(new oless::OlessInfo(""sdc"",""StarOffice Calc File"","""","""",false,L""/StarCalcDocument"",nullptr));";
  (* olessmagic.h:31 *) B "list.push_back(new oless::OlessInfo(""sdw"",""StarOffice Write File"","""","""",false,L""/StarWriterDocument"",nullptr));";
  (* olessmagic.h:32 *) B "list.push_back(new oless::OlessInfo(""hwp"",""Hangul Word Processor File"","""","""",false,L""/HwpSummaryInformation"",nullptr));";
  (* olessmagic.h:33 *) B "list.push_back(new oless::OlessInfo(""hwp"",""Hangul Word Processor File"","""","""",false,L""/\u0005HwpSummaryInformation"",nullptr));";
  (* olessmagic.h:34 *) B "list.push_back(new oless::OlessInfo(""wp"",""WordPerfect File"","""","""",false,L""/PerfectOffice_MAIN"",document::wp::StreamDetailer));";
  (* olessmagic.h:35 *) B "list.push_back(new oless::OlessInfo(""msi"",""Microsoft Installer File"","""","""",false,L""/\u4840\u3F3F\u4577\u446C\u3B6A\u45E4\u4824"",document::msi::Detailer));";
  (* olessmagic.h:36 *) B "list.push_back(new oless::OlessInfo(""ole_embedded"",""OLE Native Stream (Embedded Object)"","""","""",true,L""/\u0001Ole10Native"",nullptr));";
  (* olessmagic.h:37 *) B "list.push_back(new oless::OlessInfo(""ole_dat"",""Internet Explorer Recovery Store"","""","""",false,L""/TravelLog"",nullptr));";
  (* olessmagic.h:38 *) B "list.push_back(new oless::OlessInfo(""ole_eq"",""OLE Equation Editor"","""","""",true,L""/Equation Native"",nullptr));"].
