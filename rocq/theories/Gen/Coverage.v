(** The rows of /repo/coverage.csv: extension, parent format, name and level.  Generated from that file by
    tools/gen_source.py; the links and notes are left out. *)
From Coq Require Import List NArith Strings.String.
From Verif Require Import Lib.Bytes.
Import ListNotations.
Local Open Scope N_scope.

Record format := mkFormat { f_extension : bytes; f_parent : bytes; f_name : bytes; f_level : bytes }.

Definition coverage : list format := [
  mkFormat (B "_") (B "") (B "MS-DOS Installtion Compressed File") (B "Identification");
  mkFormat (B "7z") (B "") (B "7z Archive") (B "Identification");
  mkFormat (B "accdb") (B "") (B "Microsoft Access Database") (B "Identification");
  mkFormat (B "apk") (B "zip") (B "Android Application Package") (B "Identification");
  mkFormat (B "asf") (B "") (B "ASF Container") (B "Metadata 3");
  mkFormat (B "avi") (B "riff") (B "Audio Video Interleaved") (B "Identification");
  mkFormat (B "bmp") (B "") (B "Bitmap Image") (B "Identification");
  mkFormat (B "bmp") (B "") (B "Bitmap Icon") (B "Identification");
  mkFormat (B "bup") (B "oless") (B "Symantec malware container") (B "Identification");
  mkFormat (B "bz2") (B "") (B "BZip2 Container") (B "Identification");
  mkFormat (B "cab") (B "") (B "Microsoft Cabinet file") (B "Identification");
  mkFormat (B "cda") (B "riff") (B "") (B "Identification");
  mkFormat (B "chm") (B "") (B "Complied Help File") (B "Identification");
  mkFormat (B "cur") (B "") (B "Cursor") (B "Identification");
  mkFormat (B "db") (B "") (B "SQLLite Database File") (B "Identification");
  mkFormat (B "dex") (B "") (B "Dalvik Executable") (B "Identification");
  mkFormat (B "dmp") (B "") (B "Windows Dump File") (B "Identification");
  mkFormat (B "doc") (B "oless") (B "Microsoft Office Word Document") (B "Metadata 3");
  mkFormat (B "doc") (B "") (B "Microsoft Word for Macintosh") (B "Metadata 1");
  mkFormat (B "doc") (B "") (B "Microsoft Word") (B "Metadata 1");
  mkFormat (B "docm") (B "zip") (B "Microsoft Office Open XML Macro-Enabled Document") (B "Identification");
  mkFormat (B "docx") (B "zip") (B "Microsoft Office Open XML Document") (B "Identification");
  mkFormat (B "dotm") (B "zip") (B "Microsoft Office Open XML Macro-Enabled Document Template") (B "Identification");
  mkFormat (B "dotx") (B "zip") (B "Microsoft Office Open XML Document Template") (B "Identification");
  mkFormat (B "dwg") (B "") (B "Autocad Drawing") (B "Identification");
  mkFormat (B "ear") (B "zip") (B "Enterprise Java Archive") (B "Identification");
  mkFormat (B "elf") (B "") (B "ELF Executable") (B "Identification");
  mkFormat (B "exe") (B "") (B "DOS Executable") (B "Metadata 2");
  mkFormat (B "flac") (B "") (B "Free Lossless Audio Codec") (B "Identification");
  mkFormat (B "flv") (B "") (B "Flash Video") (B "Identification");
  mkFormat (B "gif") (B "") (B "GIF Image") (B "Identification");
  mkFormat (B "gz") (B "") (B "GZIP Archive") (B "Identification");
  mkFormat (B "hdmp") (B "") (B "Windows Dump File") (B "Identification");
  mkFormat (B "hlp") (B "") (B "Microsoft Help File") (B "Identification");
  mkFormat (B "hlp") (B "") (B "Ubuntu Help File") (B "Identification");
  mkFormat (B "html") (B "") (B "HTML Document") (B "Identification");
  mkFormat (B "hwp") (B "oless") (B "Hangul Word Processor File") (B "Identification");
  mkFormat (B "ico") (B "") (B "Icon File") (B "Identification");
  mkFormat (B "ipa") (B "zip") (B "iOS Application Archive") (B "Identification");
  mkFormat (B "irm") (B "oless") (B "Microsoft Office Information Rights Managed File") (B "Identification");
  mkFormat (B "iso") (B "") (B "ISO 9660 Disk Image") (B "Identification");
  mkFormat (B "iso") (B "") (B "Universal Disk Format (ISO 13490/Ecma-168)") (B "Identification");
  mkFormat (B "jar") (B "zip") (B "Open Document Webpage") (B "Identification");
  mkFormat (B "jbf") (B "") (B "Corel Paint Shop Pro browse file") (B "Identification");
  mkFormat (B "jpg") (B "") (B "JPEG Image") (B "Identification");
  mkFormat (B "kwd") (B "zip") (B "KWord Document") (B "None");
  mkFormat (B "lha") (B "") (B "LHArc (lha/lzh) Archive") (B "Identification");
  mkFormat (B "lib") (B "") (B "Microsoft Program Library Common Object File Format") (B "Identification");
  mkFormat (B "lnk") (B "") (B "LNK File") (B "Identification");
  mkFormat (B "mdb") (B "") (B "Microsoft Access Database") (B "Identification");
  mkFormat (B "mdi") (B "") (B "Microsoft Office Document Imaging") (B "Identification");
  mkFormat (B "midi") (B "") (B "MIDI Sound File") (B "Identification");
  mkFormat (B "mp3") (B "") (B "MPEG-1 Layer 3 file") (B "Identification");
  mkFormat (B "mp4") (B "") (B "Mp4 Container") (B "Identification");
  mkFormat (B "mpp") (B "oless") (B "Microsoft Project File") (B "Identification");
  mkFormat (B "msg") (B "oless") (B "Microsoft Outlook Mail Message") (B "Identification");
  mkFormat (B "msi") (B "oless") (B "Microsoft Installer File") (B "Identification");
  mkFormat (B "msm") (B "oless") (B "Microsoft Installer Merge Module") (B "Identification");
  mkFormat (B "msp") (B "oless") (B "Microsoft Patch File") (B "Identification");
  mkFormat (B "obj") (B "") (B "Microsoft Common Object File Format relocatable object code") (B "Identification");
  mkFormat (B "odb") (B "oless") (B "Microsoft Office Binder") (B "Identification");
  mkFormat (B "odb") (B "zip") (B "Open Document Database") (B "Identification");
  mkFormat (B "odc") (B "zip") (B "Open Document Graphics") (B "Identification");
  mkFormat (B "odf") (B "zip") (B "Open Document Formula") (B "Identification");
  mkFormat (B "odg") (B "zip") (B "Open Document Graphics") (B "Identification");
  mkFormat (B "odi") (B "zip") (B "Open Document Image") (B "Identification");
  mkFormat (B "odm") (B "zip") (B "Open Document Master Document") (B "Identification");
  mkFormat (B "odp") (B "zip") (B "Open Document Presentation") (B "Identification");
  mkFormat (B "ods") (B "zip") (B "Open Document Spreadsheet") (B "Identification");
  mkFormat (B "odt") (B "zip") (B "Open Document Text") (B "Identification");
  mkFormat (B "oless") (B "") (B "OLE Structured Storage") (B "Metadata 8");
  mkFormat (B "one") (B "") (B "Microsoft OneNote") (B "Identification");
  mkFormat (B "onetoc2") (B "") (B "Microsoft OneNote Table of Contents") (B "Identification");
  mkFormat (B "opd") (B "zip") (B "Open Document Spreadsheet") (B "Identification");
  mkFormat (B "otc") (B "zip") (B "Open Document Graphics Template") (B "Identification");
  mkFormat (B "otf") (B "zip") (B "Open Document Chart Template") (B "Identification");
  mkFormat (B "otf") (B "") (B "Open Type Font") (B "Identification");
  mkFormat (B "otg") (B "zip") (B "Open Document Presentation Template") (B "Identification");
  mkFormat (B "oth") (B "zip") (B "Open Document Image Template") (B "Identification");
  mkFormat (B "oti") (B "zip") (B "Open Document Formula Template") (B "Identification");
  mkFormat (B "otp") (B "zip") (B "Open Document Spreadsheet Template") (B "Identification");
  mkFormat (B "ots") (B "zip") (B "Open Document Text Template") (B "Identification");
  mkFormat (B "ott") (B "zip") (B "Open Document Database") (B "Identification");
  mkFormat (B "pcap") (B "") (B "Network Packet Capture File") (B "Identification");
  mkFormat (B "pdb") (B "") (B "Microsoft Program Database 2.0") (B "Identification");
  mkFormat (B "pdb") (B "") (B "Microsoft Program Database 7.0") (B "Identification");
  mkFormat (B "pdf") (B "") (B "PDF document") (B "Identification");
  mkFormat (B "pfm") (B "") (B "Postscript Font") (B "Identification");
  mkFormat (B "png") (B "") (B "Portable Network Graphics") (B "Identification");
  mkFormat (B "potm") (B "zip") (B "Microsoft Office Open XML Macro-Enabled Presentation Template") (B "Identification");
  mkFormat (B "potx") (B "zip") (B "Microsoft Office Open XML Presentation Template") (B "Identification");
  mkFormat (B "ppam") (B "zip") (B "Microsoft Office Open XML Presentation Macro-Enabled Addin") (B "Identification");
  mkFormat (B "ppsm") (B "zip") (B "Microsoft Office Open XML Macro-Enabled Presentation Slideshow") (B "Identification");
  mkFormat (B "ppsx") (B "zip") (B "Microsoft Office Open XML Presentation Slideshow") (B "Identification");
  mkFormat (B "ppt") (B "oless") (B "Microsoft Office PowerPoint Document") (B "Identification");
  mkFormat (B "ppt") (B "") (B "Microsoft Powerpoint") (B "Metadata 3");
  mkFormat (B "pptm") (B "zip") (B "Microsoft Office Open XML Macro-Enabled Presentation") (B "Identification");
  mkFormat (B "pptx") (B "zip") (B "Microsoft Office Open XML Presentation") (B "Identification");
  mkFormat (B "ps") (B "") (B "PostScript document") (B "Identification");
  mkFormat (B "psp") (B "") (B "Corel Paint Shop Pro Image file") (B "Identification");
  mkFormat (B "pst") (B "") (B "Microsoft Outlook Personal Storage Table") (B "Identification");
  mkFormat (B "pub") (B "oless") (B "Microsoft Office Publisher Document") (B "Metadata 3");
  mkFormat (B "qcp") (B "riff") (B "") (B "Identification");
  mkFormat (B "rar") (B "") (B "Rar Archive") (B "Identification");
  mkFormat (B "riff") (B "") (B "Resource Interchange File Format") (B "Metadata 2");
  mkFormat (B "rmi") (B "riff") (B "RIFF-Based MIDI File Format") (B "Identification");
  mkFormat (B "rpm") (B "") (B "Red Hat Package Manager File") (B "Identification");
  mkFormat (B "rtf") (B "") (B "Rich Text Format") (B "Identification");
  mkFormat (B "scorm_pif") (B "zip") (B "SCORM (Shareable Content Object Reference Model) Content Package") (B "Identification");
  mkFormat (B "sdc") (B "oless") (B "StarOffice Calc") (B "Identification");
  mkFormat (B "sdi") (B "") (B "Microsoft System Deployment Image") (B "Identification");
  mkFormat (B "sdw") (B "oless") (B "StarOffice Write") (B "Identification");
  mkFormat (B "sh") (B "") (B "*nix shebang script") (B "Identification");
  mkFormat (B "skp") (B "") (B "SketchUp Model") (B "Metadata 1");
  mkFormat (B "swf") (B "") (B "Shockwave Flash File") (B "Identification");
  mkFormat (B "sxc") (B "zip") (B "StarOffice spreadsheet") (B "None");
  mkFormat (B "tar") (B "") (B "Tar Archive") (B "Identification");
  mkFormat (B "tar.z") (B "") (B "Tar.Zip Container") (B "Identification");
  mkFormat (B "tiff") (B "") (B "Tagged Image File") (B "Identification");
  mkFormat (B "ttf") (B "") (B "True Type Font") (B "Identification");
  mkFormat (B "vhd") (B "") (B "Microsoft Virtual HardDisk") (B "Identification");
  mkFormat (B "vmdk") (B "") (B "VMWare Virtual Disk") (B "Identification");
  mkFormat (B "vsd") (B "oless") (B "Microsoft Office Visio Document") (B "Metadata 2");
  mkFormat (B "wab") (B "") (B "Microsoft Outlook Address File") (B "Identification");
  mkFormat (B "war") (B "zip") (B "Web Application Java Archive") (B "Identification");
  mkFormat (B "wav") (B "riff") (B "Waveform Audio File Format") (B "Identification");
  mkFormat (B "wim") (B "") (B "Windows Imaging File Format") (B "Identification");
  mkFormat (B "wmz") (B "zip") (B "Windows Media compressed skin file") (B "None");
  mkFormat (B "woff") (B "") (B "Web Open Font Format") (B "Identification");
  mkFormat (B "wp") (B "oless") (B "WordPerfect File") (B "Identification");
  mkFormat (B "wp") (B "") (B "WordPerfect File") (B "Identification");
  mkFormat (B "wp5") (B "") (B "WordPerfect File") (B "Identification");
  mkFormat (B "wps") (B "oless") (B "Microsoft Works File") (B "Identification");
  mkFormat (B "wps") (B "") (B "Microsoft Works (1-4)") (B "Identification");
  mkFormat (B "wri") (B "") (B "MS Write") (B "Identification");
  mkFormat (B "xap") (B "zip") (B "Silverlight Packaged Application") (B "Identification");
  mkFormat (B "xlam") (B "zip") (B "Microsoft Office Open XML Macro-Enabled Spreadsheet Template") (B "Identification");
  mkFormat (B "xls") (B "oless") (B "Microsoft Office Excel Document") (B "Metadata 10");
  mkFormat (B "xls") (B "") (B "Microsoft Excel") (B "Metadata 1");
  mkFormat (B "xlsb") (B "zip") (B "Microsoft Office Excel Binary") (B "Identification");
  mkFormat (B "xlsm") (B "zip") (B "Microsoft Office Open XML Macro-Enabled Spreadsheet") (B "Identification");
  mkFormat (B "xlsm_e4m") (B "xlsm") (B "Microsoft Office Excel Binary with Excel4.0Macros") (B "Metadata 1");
  mkFormat (B "xlsx") (B "zip") (B "Microsoft Office Open XML Macro-Enabled Addin") (B "Identification");
  mkFormat (B "xltm") (B "zip") (B "Microsoft Office Open XML Macro-Enabled Spreadsheet with Excel4.0Macros") (B "Identification");
  mkFormat (B "xltx") (B "zip") (B "Microsoft Office Open XML Spreadsheet") (B "Identification");
  mkFormat (B "xml") (B "") (B "XML") (B "Identification");
  mkFormat (B "xpi") (B "zip") (B "Cross Platform Installer") (B "Identification");
  mkFormat (B "xps") (B "zip") (B "Microsoft XML Paper Specfication") (B "Identification");
  mkFormat (B "xpt") (B "zip") (B "eXact Packager Models") (B "None");
  mkFormat (B "xz") (B "") (B "XZ Compressed File") (B "Identification");
  mkFormat (B "zip") (B "") (B "Zip Archive") (B "Metadata 1")].
