(** Tables of /repo/fileid/zip/ziphelper.hpp, copied by a script. *)
From Coq Require Import List NArith Strings.String.
From Verif Require Import Lib.Bytes Lib.Text.
Import ListNotations.

(** ziphelper.hpp:153-279: content type, extension, name *)
Definition content_types : list (bytes * (bytes * bytes)) := [
  (B "application/vnd.ms-word.document.macroEnabled.main+xml", (B "docm", B "Microsoft Office Open XML Macro-Enabled Document"));
  (B "application/vnd.ms-word.template.macroEnabledTemplate.main+xml", (B "dotm", B "Microsoft Office Open XML Macro-Enabled Document Template"));
  (B "application/vnd.openxmlformats-officedocument.wordprocessingml.document.main+xml", (B "docx", B "Microsoft Office Open XML Document"));
  (B "application/vnd.openxmlformats-officedocument.wordprocessingml.template.main+xml", (B "dotx", B "Microsoft Office Open XML Document Template"));
  (B "application/vnd.ms-powerpoint.template.macroEnabled.main+xml", (B "potm", B "Microsoft Office Open XML Macro-Enabled Presentation Template"));
  (B "application/vnd.ms-powerpoint.slideshow.macroEnabled.main+xml", (B "ppsm", B "Microsoft Office Open XML Macro-Enabled Presentation Slideshow"));
  (B "application/vnd.ms-powerpoint.presentation.macroEnabled.main+xml", (B "pptm", B "Microsoft Office Open XML Macro-Enabled Presentation"));
  (B "application/vnd.ms-powerpoint.addin.macroEnabled.main+xml", (B "ppam", B "Microsoft Office Open XML Presentation Macro-Enabled Addin"));
  (B "application/vnd.openxmlformats-officedocument.presentationml.template.main+xml", (B "potx", B "Microsoft Office Open XML Presentation Template"));
  (B "application/vnd.openxmlformats-officedocument.presentationml.slideshow.main+xml", (B "ppsx", B "Microsoft Office Open XML Presentation Slideshow"));
  (B "application/vnd.openxmlformats-officedocument.presentationml.presentation.main+xml", (B "pptx", B "Microsoft Office Open XML Presentation"));
  (B "application/vnd.ms-excel.sheet.macroEnabled.main+xml", (B "xlsm", B "Microsoft Office Open XML Macro-Enabled Spreadsheet"));
  (B "application/vnd.ms-excel.worksheet", (B "xlsb", B "Microsoft Office Excel Binary"));
  (B "application/vnd.ms-excel.main", (B "xlsb", B "Microsoft Office Excel Binary"));
  (B "application/vnd.ms-excel.macrosheet", (B "xlsb_e4m", B "Microsoft Office Excel Binary with Excel4.0Macros"));
  (B "application/vnd.ms-excel.macrosheet+xml", (B "xlsm_e4m", B "Microsoft Office Open XML Macro-Enabled Spreadsheet with Excel4.0Macros"));
  (B "application/vnd.ms-excel.template.macroEnabled.main+xml", (B "xltm", B "Microsoft Office Open XML Macro-Enabled Spreadsheet Template"));
  (B "application/vnd.ms-excel.addin.macroEnabled.main+xml", (B "xlam", B "Microsoft Office Open XML Macro-Enabled Addin"));
  (B "application/vnd.openxmlformats-officedocument.spreadsheetml.sheet.main+xml", (B "xlsx", B "Microsoft Office Open XML Spreadsheet"));
  (B "application/vnd.openxmlformats-officedocument.spreadsheetml.template.main+xml", (B "xltx", B "Microsoft Office Open XML Spreadsheet Template"));
  (B "application/vnd.ms-package.xps-fixeddocumentsequence+xml", (B "xps", B "Microsoft XML Paper Specfication"))].
(** ziphelper.hpp:281-384: MIME type, extension, name *)
Definition mime_types : list (bytes * (bytes * bytes)) := [
  (B "application/vnd.oasis.opendocument.text", (B "odt", B "Open Document Text"));
  (B "application/vnd.oasis.opendocument.spreadsheet", (B "ods", B "Open Document Spreadsheet"));
  (B "application/vnd.oasis.opendocument.presentation", (B "opd", B "Open Document Presentation"));
  (B "application/vnd.oasis.opendocument.graphics", (B "odg", B "Open Document Graphics"));
  (B "application/vnd.oasis.opendocument.chart", (B "odc", B "Open Document Chart"));
  (B "application/vnd.oasis.opendocument.formula", (B "odf", B "Open Document Formula"));
  (B "application/vnd.oasis.opendocument.image", (B "odi", B "Open Document Image"));
  (B "application/vnd.oasis.opendocument.text-master", (B "odm", B "Open Document Text-Master"));
  (B "application/vnd.sun.xml.base", (B "odb", B "Open Document Database"));
  (B "application/vnd.oasis.opendocument.base", (B "odb", B "Open Document Database"));
  (B "application/vnd.oasis.opendocument.database", (B "odb", B "Open Document Database"));
  (B "application/vnd.oasis.opendocument.text-template", (B "ott", B "Open Document Text Template"));
  (B "application/vnd.oasis.opendocument.spreadsheet-template", (B "ots", B "Open Document Spreadsheet Template"));
  (B "application/vnd.oasis.opendocument.presentation-template", (B "otp", B "Open Document Presentation Template"));
  (B "application/vnd.oasis.opendocument.graphics-template", (B "otg", B "Open Document Graphics Template"));
  (B "application/vnd.oasis.opendocument.chart-template", (B "otc", B "Open Document Chart Template"));
  (B "application/vnd.oasis.opendocument.formula-template", (B "otf", B "Open Document Formula Template"));
  (B "application/vnd.oasis.opendocument.image-template", (B "oti", B "Open Document Image Template"));
  (B "application/vnd.oasis.opendocument.text-web", (B "oth", B "Open Document Webpage"))].
(** ziphelper.hpp:468-477: entry, extension, name *)
Definition marker_entries : list (bytes * (bytes * bytes)) := [
  (B "META-INF/MANIFEST.MF", (B "jar", B "Java Archive"));
  (B "WEB-INF/web.xml", (B "war", B "Web Application Java Archive"));
  (B "META-INF/application.xml", (B "ear", B "Enterprise Java Archive"));
  (B "AndroidManifest.xml", (B "apk", B "Android Application Package"));
  (B "install.js", (B "xpi", B "Cross Platform Installer"));
  (B "install.rdf", (B "xpi", B "Cross Platform Installer"));
  (B "AppManifest.xaml", (B "xap", B "Silverlight Packaged Application"));
  (B "WMAppManifest.xml", (B "xap", B "Silverlight Phone Application"));
  (B "Payload/Application.app", (B "ipa", B "iOS Application Archive"));
  (B "imsmanifest.xml", (B "scorm_pif", B "SCORM (Shareable Content Object Reference Model) Content Package"))].
