(** The shipped tables, _definitions/tables/*/*/*/*/TableB.json and TableD.json.  Generated by
    tools/gen_tables.py.  The first number of a row is the set of tables that contain it, bit k
    standing for entry k of [shipped_tables]. *)
From Verif Require Import Base.

(** Master table, centre, subcentre and version of each shipped table, in the order of the bits. *)
Definition shipped_tables : list (Z * Z * Z * Z) :=
  [(0, 0, 0, 6);
   (0, 0, 0, 7);
   (0, 0, 0, 8);
   (0, 0, 0, 9);
   (0, 0, 0, 10);
   (0, 0, 0, 11);
   (0, 0, 0, 12);
   (0, 0, 0, 13);
   (0, 0, 0, 14);
   (0, 0, 0, 15);
   (0, 0, 0, 16);
   (0, 0, 0, 17);
   (0, 0, 0, 18);
   (0, 0, 0, 19);
   (0, 0, 0, 20);
   (0, 0, 0, 21);
   (0, 0, 0, 22);
   (0, 0, 0, 23);
   (0, 0, 0, 24);
   (0, 0, 0, 25);
   (0, 0, 0, 26);
   (0, 0, 0, 27);
   (0, 0, 0, 28);
   (0, 0, 0, 29);
   (0, 0, 0, 30);
   (0, 0, 0, 31);
   (0, 0, 0, 32);
   (0, 0, 0, 33);
   (0, 0, 0, 34);
   (0, 0, 0, 35);
   (0, 0, 0, 36);
   (0, 0, 0, 37);
   (0, 0, 0, 38);
   (0, 0, 0, 39);
   (0, 0, 0, 40);
   (0, 0, 0, 41);
   (0, 98, 0, 1);
   (0, 98, 0, 2);
   (0, 98, 0, 3);
   (0, 98, 0, 101)].

(** Rows of Table B: identifier, (unit, scale, reference value, width). *)
Definition b_rows : list (Z * (Z * (string * Z * Z * Z))) :=
  [(68719476735, (1, ("CCITT IA5"%string, 0, 0, 24)));
   (68719476735, (2, ("CCITT IA5"%string, 0, 0, 256)));
   (68719476735, (3, ("CCITT IA5"%string, 0, 0, 256)));
   (68719476734, (4, ("CCITT IA5"%string, 0, 0, 16)));
   (68719476735, (5, ("CCITT IA5"%string, 0, 0, 24)));
   (68719476734, (6, ("CCITT IA5"%string, 0, 0, 16)));
   (68719476734, (7, ("CCITT IA5"%string, 0, 0, 16)));
   (68719476734, (8, ("CCITT IA5"%string, 0, 0, 16)));
   (68719476735, (10, ("CCITT IA5"%string, 0, 0, 8)));
   (68719476735, (11, ("CCITT IA5"%string, 0, 0, 16)));
   (68719476735, (12, ("CCITT IA5"%string, 0, 0, 24)));
   (68719476735, (13, ("CCITT IA5"%string, 0, 0, 256)));
   (68719476735, (14, ("CCITT IA5"%string, 0, 0, 256)));
   (68719476735, (15, ("CCITT IA5"%string, 0, 0, 192)));
   (68719476735, (16, ("CCITT IA5"%string, 0, 0, 8)));
   (68719476735, (17, ("CCITT IA5"%string, 0, 0, 24)));
   (68719476735, (18, ("CCITT IA5"%string, 0, 0, 8)));
   (68719476735, (19, ("CCITT IA5"%string, 0, 0, 80)));
   (68719476735, (20, ("CCITT IA5"%string, 0, 0, 24)));
   (68719476224, (24, ("CCITT IA5"%string, 0, 0, 64)));
   (68719476224, (25, ("CCITT IA5"%string, 0, 0, 496)));
   (3584, (26, ("CCITT IA5"%string, 0, 0, 16)));
   (68719472640, (26, ("CCITT IA5"%string, 0, 0, 48)));
   (68719476224, (27, ("CCITT IA5"%string, 0, 0, 496)));
   (68719476735, (30, ("CCITT IA5"%string, 0, 0, 48)));
   (68719476735, (1001, ("Numeric"%string, 0, 0, 7)));
   (68719476735, (1002, ("Numeric"%string, 0, 0, 10)));
   (536870911, (1003, ("CODE TABLE"%string, 0, 0, 3)));
   (68182605824, (1003, ("Code table"%string, 0, 0, 3)));
   (68719476735, (1004, ("Numeric"%string, 0, 0, 3)));
   (68719476735, (1005, ("Numeric"%string, 0, 0, 17)));
   (68719476735, (1006, ("CCITT IA5"%string, 0, 0, 64)));
   (536870911, (1007, ("CODE TABLE"%string, 0, 0, 10)));
   (68182605824, (1007, ("Code table"%string, 0, 0, 10)));
   (68719476735, (1008, ("CCITT IA5"%string, 0, 0, 64)));
   (68719476735, (1009, ("CCITT IA5"%string, 0, 0, 64)));
   (68719476735, (1010, ("CCITT IA5"%string, 0, 0, 64)));
   (68719476735, (1011, ("CCITT IA5"%string, 0, 0, 72)));
   (536870911, (1012, ("deg"%string, 0, 0, 9)));
   (68182605824, (1012, ("degree true"%string, 0, 0, 9)));
   (68719476735, (1013, ("m/s"%string, 0, 0, 10)));
   (68719476735, (1014, ("m/s"%string, 2, 0, 10)));
   (68719476735, (1015, ("CCITT IA5"%string, 0, 0, 160)));
   (60129542144, (1016, ("Numeric"%string, 0, 0, 16)));
   (68719476735, (1018, ("CCITT IA5"%string, 0, 0, 40)));
   (68719476734, (1019, ("CCITT IA5"%string, 0, 0, 256)));
   (68719476735, (1020, ("Numeric"%string, 0, 0, 4)));
   (68719476735, (1021, ("Numeric"%string, 0, 0, 14)));
   (68719476735, (1022, ("CCITT IA5"%string, 0, 0, 224)));
   (68719476734, (1023, ("Numeric"%string, 0, 0, 9)));
   (536870656, (1024, ("CODE TABLE"%string, 0, 0, 5)));
   (68182605824, (1024, ("Code table"%string, 0, 0, 5)));
   (68719476735, (1025, ("CCITT IA5"%string, 0, 0, 24)));
   (68719476735, (1026, ("CCITT IA5"%string, 0, 0, 64)));
   (68719476735, (1027, ("CCITT IA5"%string, 0, 0, 80)));
   (536870656, (1028, ("CODE TABLE"%string, 0, 0, 5)));
   (68182605824, (1028, ("Code table"%string, 0, 0, 5)));
   (536870656, (1029, ("CODE TABLE"%string, 0, 0, 5)));
   (68182605824, (1029, ("Code table"%string, 0, 0, 5)));
   (68719476734, (1030, ("CCITT IA5"%string, 0, 0, 128)));
   (536870911, (1031, ("CODE TABLE"%string, 0, 0, 16)));
   (68182605824, (1031, ("Code table"%string, 0, 0, 16)));
   (1023, (1032, ("CODE TABLE"%string, 0, 0, 8)));
   (536869888, (1032, ("CODE TABLE defined by originating/generating centre"%string, 0, 0, 8)));
   (68182605824, (1032, ("Code table defined by originating/generating centre"%string, 0, 0, 8)));
   (1023, (1033, ("CODE TABLE"%string, 0, 0, 8)));
   (536869888, (1033, ("Common CODE TABLE C-1"%string, 0, 0, 8)));
   (68182605824, (1033, ("Common Code table C-1"%string, 0, 0, 8)));
   (1023, (1034, ("CODE TABLE"%string, 0, 0, 8)));
   (536869888, (1034, ("Common CODE TABLE C-12"%string, 0, 0, 8)));
   (68182605824, (1034, ("Common Code table C-12"%string, 0, 0, 8)));
   (536870910, (1035, ("Common CODE TABLE C-11"%string, 0, 0, 16)));
   (68182605824, (1035, ("Common Code table C-11"%string, 0, 0, 16)));
   (536870910, (1036, ("CODE TABLE"%string, 0, 0, 20)));
   (68182605824, (1036, ("Code table"%string, 0, 0, 20)));
   (68719476734, (1037, ("CCITT IA5"%string, 0, 0, 24)));
   (536870656, (1038, ("CODE TABLE"%string, 0, 0, 5)));
   (68182605824, (1038, ("Code table"%string, 0, 0, 5)));
   (68719476480, (1039, ("CCITT IA5"%string, 0, 0, 40)));
   (68719468544, (1040, ("CCITT IA5"%string, 0, 0, 48)));
   (68719476735, (1041, ("m/s"%string, 5, -1073741824, 31)));
   (68719476735, (1042, ("m/s"%string, 5, -1073741824, 31)));
   (68719476735, (1043, ("m/s"%string, 5, -1073741824, 31)));
   (503316480, (1044, ("CODE TABLE"%string, 0, 0, 8)));
   (68182605824, (1044, ("Code table"%string, 0, 0, 8)));
   (68719476734, (1050, ("Numeric"%string, 0, 0, 17)));
   (68719476734, (1051, ("CCITT IA5"%string, 0, 0, 96)));
   (536870656, (1052, ("CODE TABLE"%string, 0, 0, 3)));
   (68182605824, (1052, ("Code table"%string, 0, 0, 3)));
   (68719476480, (1053, ("Numeric"%string, 0, 0, 7)));
   (68719476735, (1060, ("CCITT IA5"%string, 0, 0, 64)));
   (68719476734, (1062, ("CCITT IA5"%string, 0, 0, 32)));
   (68719476735, (1063, ("CCITT IA5"%string, 0, 0, 64)));
   (68719476735, (1064, ("CCITT IA5"%string, 0, 0, 32)));
   (68719476734, (1065, ("CCITT IA5"%string, 0, 0, 256)));
   (68719476735, (1075, ("CCITT IA5"%string, 0, 0, 40)));
   (68719468544, (1079, ("CCITT IA5"%string, 0, 0, 64)));
   (68719476734, (1080, ("CCITT IA5"%string, 0, 0, 32)));
   (68719476734, (1081, ("CCITT IA5"%string, 0, 0, 160)));
   (68719476734, (1082, ("Numeric"%string, 0, 0, 14)));
   (68719476734, (1083, ("Numeric"%string, 0, 0, 3)));
   (68719476734, (1085, ("CCITT IA5"%string, 0, 0, 160)));
   (68719476734, (1086, ("CCITT IA5"%string, 0, 0, 256)));
   (68719476734, (1087, ("Numeric"%string, 0, 0, 23)));
   (536870910, (1090, ("CODE TABLE"%string, 0, 0, 8)));
   (68182605824, (1090, ("Code table"%string, 0, 0, 8)));
   (68719476734, (1091, ("Numeric"%string, 0, 0, 10)));
   (536870910, (1092, ("CODE TABLE"%string, 0, 0, 8)));
   (68182605824, (1092, ("Code table"%string, 0, 0, 8)));
   (68719476734, (1093, ("CCITT IA5"%string, 0, 0, 96)));
   (68719476734, (1094, ("Numeric"%string, 0, 0, 17)));
   (68719476734, (1095, ("CCITT IA5"%string, 0, 0, 32)));
   (68719476734, (1096, ("CCITT IA5"%string, 0, 0, 160)));
   (7936, (1097, ("Numeric"%string, 0, 0, 13)));
   (7936, (1098, ("CODE TABLE"%string, 0, 0, 12)));
   (68719475968, (1099, ("CCITT IA5"%string, 0, 0, 248)));
   (512, (1099, ("CCITT IA5"%string, 0, 0, 2048)));
   (536870910, (1101, ("CODE TABLE"%string, 0, 0, 10)));
   (68182605824, (1101, ("Code table"%string, 0, 0, 10)));
   (68719476734, (1102, ("Numeric"%string, 0, 0, 30)));
   (7936, (1103, ("Numeric"%string, 0, 0, 14)));
   (68719468544, (1103, ("Numeric"%string, 0, 0, 24)));
   (68718428160, (1104, ("CCITT IA5"%string, 0, 0, 32)));
   (68718428160, (1105, ("CCITT IA5"%string, 0, 0, 40)));
   (68718428160, (1106, ("m"%string, -2, 0, 14)));
   (68719476480, (1110, ("CCITT IA5"%string, 0, 0, 48)));
   (68719476480, (1111, ("CCITT IA5"%string, 0, 0, 24)));
   (68719476480, (1112, ("CCITT IA5"%string, 0, 0, 24)));
   (68719451648, (1113, ("Numeric"%string, 1, 0, 9)));
   (68717379584, (1114, ("CCITT IA5"%string, 0, 0, 352)));
   (68719411200, (1115, ("CCITT IA5"%string, 0, 0, 160)));
   (68719476734, (1124, ("Numeric"%string, 0, 0, 24)));
   (68715282432, (1125, ("Numeric"%string, 0, 0, 4)));
   (68715282432, (1126, ("Numeric"%string, 0, 0, 16)));
   (68715282432, (1127, ("Numeric"%string, 0, 0, 16)));
   (68715282432, (1128, ("CCITT IA5"%string, 0, 0, 128)));
   (68719476734, (1144, ("Numeric"%string, 0, 0, 31)));
   (60129542144, (1145, ("Numeric"%string, 0, -8, 20)));
   (534773760, (1150, ("CODE TABLE"%string, 0, 0, 16)));
   (68182605824, (1150, ("Code table"%string, 0, 0, 16)));
   (534773760, (1151, ("CODE TABLE"%string, 0, 0, 12)));
   (68182605824, (1151, ("Code table"%string, 0, 0, 12)));
   (68717379584, (1152, ("m"%string, 2, 0, 31)));
   (68717379584, (1153, ("m"%string, 2, 0, 31)));
   (68182605824, (1154, ("Numeric"%string, 0, 0, 12)));
   (66571993088, (1155, ("Code table"%string, 0, 0, 8)));
   (618475290624, (1192, ("CODE TABLE"%string, 0, 0, 8)));
   (618475290624, (1193, ("CODE TABLE"%string, 0, 0, 4)));
   (618475290624, (1194, ("CCITT IA5"%string, 0, 0, 72)));
   (618475290624, (1195, ("CCITT IA5"%string, 0, 0, 72)));
   (618475290624, (1196, ("CCITT IA5"%string, 0, 0, 72)));
   (618475290624, (1197, ("CODE TABLE"%string, 0, 0, 10)));
   (618475290624, (1198, ("CODE TABLE"%string, 0, 0, 10)));
   (618475290624, (1199, ("CODE TABLE"%string, 0, 0, 4)));
   (618475290624, (1201, ("CODE TABLE"%string, 0, 0, 8)));
   (618475290624, (1205, ("CODE TABLE"%string, 0, 0, 10)));
   (618475290624, (1208, ("m/s"%string, 5, -1073741824, 31)));
   (618475290624, (1209, ("m/s"%string, 5, -1073741824, 31)));
   (618475290624, (1210, ("m/s"%string, 5, -1073741824, 31)));
   (68719476736, (1211, ("CCITT IA5"%string, 0, 0, 160)));
   (549755813888, (1211, ("CODE TABLE"%string, 0, 0, 8)));
   (68719476736, (1220, ("CCITT IA5"%string, 0, 0, 160)));
   (536870911, (2001, ("CODE TABLE"%string, 0, 0, 2)));
   (68182605824, (2001, ("Code table"%string, 0, 0, 2)));
   (536870911, (2002, ("FLAG TABLE"%string, 0, 0, 4)));
   (68182605824, (2002, ("Flag table"%string, 0, 0, 4)));
   (536870911, (2003, ("CODE TABLE"%string, 0, 0, 4)));
   (68182605824, (2003, ("Code table"%string, 0, 0, 4)));
   (536870911, (2004, ("CODE TABLE"%string, 0, 0, 4)));
   (68182605824, (2004, ("Code table"%string, 0, 0, 4)));
   (68719476735, (2005, ("K"%string, 2, 0, 7)));
   (68182605824, (2006, ("Code table"%string, 0, 0, 6)));
   (7936, (2007, ("CODE TABLE"%string, 0, 0, 4)));
   (536805376, (2007, ("CODE TABLE"%string, 0, 0, 6)));
   (68182605824, (2007, ("Code table"%string, 0, 0, 6)));
   (528482304, (2008, ("CODE TABLE"%string, 0, 0, 4)));
   (68182605824, (2008, ("Code table"%string, 0, 0, 4)));
   (34359738368, (2009, ("Code table"%string, 0, 0, 4)));
   (536870911, (2011, ("CODE TABLE"%string, 0, 0, 8)));
   (68182605824, (2011, ("Code table"%string, 0, 0, 8)));
   (536870911, (2012, ("CODE TABLE"%string, 0, 0, 4)));
   (68182605824, (2012, ("Code table"%string, 0, 0, 4)));
   (536870911, (2013, ("CODE TABLE"%string, 0, 0, 4)));
   (68182605824, (2013, ("Code table"%string, 0, 0, 4)));
   (536870911, (2014, ("CODE TABLE"%string, 0, 0, 7)));
   (68182605824, (2014, ("Code table"%string, 0, 0, 7)));
   (536870911, (2015, ("CODE TABLE"%string, 0, 0, 4)));
   (68182605824, (2015, ("Code table"%string, 0, 0, 4)));
   (536870910, (2016, ("FLAG TABLE"%string, 0, 0, 5)));
   (68182605824, (2016, ("Flag table"%string, 0, 0, 5)));
   (536866816, (2017, ("CODE TABLE"%string, 0, 0, 5)));
   (68182605824, (2017, ("Code table"%string, 0, 0, 5)));
   (536870911, (2019, ("CODE TABLE"%string, 0, 0, 11)));
   (68182605824, (2019, ("Code table"%string, 0, 0, 11)));
   (536870911, (2020, ("CODE TABLE"%string, 0, 0, 9)));
   (68182605824, (2020, ("Code table"%string, 0, 0, 9)));
   (536870911, (2021, ("FLAG TABLE"%string, 0, 0, 9)));
   (68182605824, (2021, ("Flag table"%string, 0, 0, 9)));
   (536870911, (2022, ("FLAG TABLE"%string, 0, 0, 8)));
   (68182605824, (2022, ("Flag table"%string, 0, 0, 8)));
   (536870911, (2023, ("CODE TABLE"%string, 0, 0, 4)));
   (68182605824, (2023, ("Code table"%string, 0, 0, 4)));
   (536870911, (2024, ("CODE TABLE"%string, 0, 0, 4)));
   (68182605824, (2024, ("Code table"%string, 0, 0, 4)));
   (536870911, (2025, ("FLAG TABLE"%string, 0, 0, 25)));
   (68182605824, (2025, ("Flag table"%string, 0, 0, 25)));
   (68719476735, (2026, ("m"%string, 2, 0, 12)));
   (68719476735, (2027, ("m"%string, 2, 0, 12)));
   (1, (2028, ("CODE TABLE"%string, 0, 0, 11)));
   (68719476734, (2028, ("m"%string, 0, 0, 18)));
   (68719476734, (2029, ("m"%string, 0, 0, 18)));
   (536870911, (2030, ("CODE TABLE"%string, 0, 0, 3)));
   (68182605824, (2030, ("Code table"%string, 0, 0, 3)));
   (536870911, (2031, ("CODE TABLE"%string, 0, 0, 5)));
   (68182605824, (2031, ("Code table"%string, 0, 0, 5)));
   (536870911, (2032, ("CODE TABLE"%string, 0, 0, 2)));
   (68182605824, (2032, ("Code table"%string, 0, 0, 2)));
   (536870911, (2033, ("CODE TABLE"%string, 0, 0, 3)));
   (68182605824, (2033, ("Code table"%string, 0, 0, 3)));
   (536870911, (2034, ("CODE TABLE"%string, 0, 0, 5)));
   (68182605824, (2034, ("Code table"%string, 0, 0, 5)));
   (68719476735, (2035, ("m"%string, 0, 0, 9)));
   (536870911, (2036, ("CODE TABLE"%string, 0, 0, 2)));
   (68182605824, (2036, ("Code table"%string, 0, 0, 2)));
   (536870911, (2037, ("CODE TABLE"%string, 0, 0, 3)));
   (68182605824, (2037, ("Code table"%string, 0, 0, 3)));
   (536870911, (2038, ("CODE TABLE"%string, 0, 0, 4)));
   (68182605824, (2038, ("Code table"%string, 0, 0, 4)));
   (536870911, (2039, ("CODE TABLE"%string, 0, 0, 3)));
   (68182605824, (2039, ("Code table"%string, 0, 0, 3)));
   (536870911, (2040, ("CODE TABLE"%string, 0, 0, 4)));
   (68182605824, (2040, ("Code table"%string, 0, 0, 4)));
   (536870911, (2041, ("CODE TABLE"%string, 0, 0, 6)));
   (68182605824, (2041, ("Code table"%string, 0, 0, 6)));
   (536870910, (2042, ("CODE TABLE"%string, 0, 0, 2)));
   (68182605824, (2042, ("Code table"%string, 0, 0, 2)));
   (536870911, (2044, ("CODE TABLE"%string, 0, 0, 4)));
   (68182605824, (2044, ("Code table"%string, 0, 0, 4)));
   (536870911, (2045, ("CODE TABLE"%string, 0, 0, 4)));
   (68182605824, (2045, ("Code table"%string, 0, 0, 4)));
   (536870911, (2046, ("CODE TABLE"%string, 0, 0, 4)));
   (68182605824, (2046, ("Code table"%string, 0, 0, 4)));
   (536870656, (2047, ("CODE TABLE"%string, 0, 0, 7)));
   (68182605824, (2047, ("Code table"%string, 0, 0, 7)));
   (536870911, (2048, ("CODE TABLE"%string, 0, 0, 4)));
   (68182605824, (2048, ("Code table"%string, 0, 0, 4)));
   (536870911, (2049, ("FLAG TABLE"%string, 0, 0, 8)));
   (68182605824, (2049, ("Flag table"%string, 0, 0, 8)));
   (536870911, (2050, ("FLAG TABLE"%string, 0, 0, 20)));
   (68182605824, (2050, ("Flag table"%string, 0, 0, 20)));
   (536870911, (2051, ("CODE TABLE"%string, 0, 0, 4)));
   (68182605824, (2051, ("Code table"%string, 0, 0, 4)));
   (536870911, (2052, ("FLAG TABLE"%string, 0, 0, 6)));
   (68182605824, (2052, ("Flag table"%string, 0, 0, 6)));
   (536870911, (2053, ("CODE TABLE"%string, 0, 0, 4)));
   (68182605824, (2053, ("Code table"%string, 0, 0, 4)));
   (536870911, (2054, ("CODE TABLE"%string, 0, 0, 4)));
   (68182605824, (2054, ("Code table"%string, 0, 0, 4)));
   (536870911, (2055, ("CODE TABLE"%string, 0, 0, 4)));
   (68182605824, (2055, ("Code table"%string, 0, 0, 4)));
   (536870911, (2056, ("CODE TABLE"%string, 0, 0, 4)));
   (68182605824, (2056, ("Code table"%string, 0, 0, 4)));
   (536870911, (2057, ("CODE TABLE"%string, 0, 0, 4)));
   (68182605824, (2057, ("Code table"%string, 0, 0, 4)));
   (536870911, (2058, ("CODE TABLE"%string, 0, 0, 4)));
   (68182605824, (2058, ("Code table"%string, 0, 0, 4)));
   (536870911, (2059, ("CODE TABLE"%string, 0, 0, 4)));
   (68182605824, (2059, ("Code table"%string, 0, 0, 4)));
   (536870911, (2060, ("CODE TABLE"%string, 0, 0, 4)));
   (68182605824, (2060, ("Code table"%string, 0, 0, 4)));
   (536870911, (2061, ("CODE TABLE"%string, 0, 0, 3)));
   (68182605824, (2061, ("Code table"%string, 0, 0, 3)));
   (536870911, (2062, ("CODE TABLE"%string, 0, 0, 4)));
   (68182605824, (2062, ("Code table"%string, 0, 0, 4)));
   (68719476735, (2063, ("deg"%string, 2, -18000, 16)));
   (536870911, (2064, ("CODE TABLE"%string, 0, 0, 2)));
   (68182605824, (2064, ("Code table"%string, 0, 0, 2)));
   (68719476735, (2065, ("CCITT IA5"%string, 0, 0, 40)));
   (536870910, (2066, ("CODE TABLE"%string, 0, 0, 6)));
   (68182605824, (2066, ("Code table"%string, 0, 0, 6)));
   (68719476734, (2067, ("Hz"%string, -5, 0, 15)));
   (536870911, (2070, ("CODE TABLE"%string, 0, 0, 4)));
   (68182605824, (2070, ("Code table"%string, 0, 0, 4)));
   (68719476734, (2071, ("m"%string, 13, 0, 30)));
   (68719476480, (2072, ("m"%string, 13, 0, 30)));
   (536870910, (2080, ("CODE TABLE"%string, 0, 0, 6)));
   (68182605824, (2080, ("Code table"%string, 0, 0, 6)));
   (536870910, (2081, ("CODE TABLE"%string, 0, 0, 5)));
   (68182605824, (2081, ("Code table"%string, 0, 0, 5)));
   (68719476734, (2082, ("kg"%string, 3, 0, 12)));
   (536870910, (2083, ("CODE TABLE"%string, 0, 0, 4)));
   (68182605824, (2083, ("Code table"%string, 0, 0, 4)));
   (536870910, (2084, ("CODE TABLE"%string, 0, 0, 4)));
   (68182605824, (2084, ("Code table"%string, 0, 0, 4)));
   (68719476734, (2085, ("kg"%string, 3, 0, 13)));
   (68719476734, (2086, ("m"%string, 1, 0, 10)));
   (68717379584, (2087, ("m2"%string, 4, 0, 15)));
   (68715282432, (2088, ("m3"%string, 3, 0, 13)));
   (66571993088, (2090, ("m"%string, 9, 0, 16)));
   (68719476734, (2091, ("A"%string, 4, 0, 10)));
   (402653184, (2092, ("CODE TABLE"%string, 0, 0, 3)));
   (68182605824, (2092, ("Code table"%string, 0, 0, 3)));
   (536870910, (2095, ("CODE TABLE"%string, 0, 0, 5)));
   (68182605824, (2095, ("Code table"%string, 0, 0, 5)));
   (536870910, (2096, ("CODE TABLE"%string, 0, 0, 5)));
   (68182605824, (2096, ("Code table"%string, 0, 0, 5)));
   (536870910, (2097, ("CODE TABLE"%string, 0, 0, 5)));
   (68182605824, (2097, ("Code table"%string, 0, 0, 5)));
   (8190, (2098, ("CODE TABLE"%string, 0, 0, 4)));
   (536870910, (2099, ("CODE TABLE"%string, 0, 0, 3)));
   (68182605824, (2099, ("Code table"%string, 0, 0, 3)));
   (68719476735, (2100, ("dB"%string, 1, 0, 12)));
   (536870911, (2101, ("CODE TABLE"%string, 0, 0, 4)));
   (68182605824, (2101, ("Code table"%string, 0, 0, 4)));
   (68719476735, (2102, ("m"%string, 0, 0, 8)));
   (536870911, (2103, ("FLAG TABLE"%string, 0, 0, 2)));
   (68182605824, (2103, ("Flag table"%string, 0, 0, 2)));
   (536870911, (2104, ("CODE TABLE"%string, 0, 0, 4)));
   (68182605824, (2104, ("Code table"%string, 0, 0, 4)));
   (68719476735, (2105, ("dB"%string, 0, 0, 6)));
   (68719476735, (2106, ("deg"%string, 1, 0, 6)));
   (68719476735, (2107, ("dB"%string, 0, 0, 6)));
   (68719476735, (2108, ("dB"%string, 0, 0, 6)));
   (68719476735, (2109, ("deg/s"%string, 2, 0, 12)));
   (68719476735, (2110, ("deg/s"%string, 2, 0, 12)));
   (68719476735, (2111, ("deg"%string, 1, 0, 10)));
   (68719476735, (2112, ("deg"%string, 1, 0, 12)));
   (68719476735, (2113, ("Numeric"%string, 0, 0, 4)));
   (68719476735, (2114, ("m2"%string, 0, 0, 15)));
   (536870910, (2115, ("CODE TABLE"%string, 0, 0, 5)));
   (68182605824, (2115, ("Code table"%string, 0, 0, 5)));
   (68719476734, (2116, ("%"%string, 0, 0, 7)));
   (68719476734, (2117, ("%"%string, 0, 0, 7)));
   (68719476734, (2118, ("%"%string, 0, 0, 7)));
   (536870910, (2119, ("CODE TABLE"%string, 0, 0, 3)));
   (68182605824, (2119, ("Code table"%string, 0, 0, 3)));
   (68719476734, (2120, ("Hz"%string, 3, 0, 10)));
   (68719476735, (2121, ("Hz"%string, -8, 0, 7)));
   (68719476735, (2122, ("Hz"%string, -6, -128, 8)));
   (68719476735, (2123, ("W"%string, -4, 0, 7)));
   (68719476735, (2124, ("W"%string, -1, 0, 7)));
   (68719476735, (2125, ("Hz"%string, -1, 0, 8)));
   (68719476735, (2126, ("s"%string, 7, 0, 6)));
   (68719476735, (2127, ("Hz"%string, -6, 0, 7)));
   (68719476735, (2128, ("Hz"%string, -5, 0, 6)));
   (68719476735, (2129, ("dB"%string, 0, -150, 5)));
   (68719476735, (2130, ("dB"%string, 0, 0, 7)));
   (536870911, (2131, ("FLAG TABLE"%string, 0, 0, 2)));
   (68182605824, (2131, ("Flag table"%string, 0, 0, 2)));
   (68719476735, (2132, ("deg"%string, 2, 0, 6)));
   (68719476735, (2133, ("deg"%string, 2, 0, 6)));
   (68719476735, (2134, ("deg"%string, 2, 0, 16)));
   (68719476735, (2135, ("deg"%string, 2, -9000, 15)));
   (68719476735, (2136, ("m"%string, -3, 0, 16)));
   (536870656, (2137, ("CODE TABLE"%string, 0, 0, 4)));
   (68182605824, (2137, ("Code table"%string, 0, 0, 4)));
   (536870656, (2138, ("CODE TABLE"%string, 0, 0, 2)));
   (68182605824, (2138, ("Code table"%string, 0, 0, 2)));
   (536862720, (2139, ("CODE TABLE"%string, 0, 0, 2)));
   (68182605824, (2139, ("Code table"%string, 0, 0, 2)));
   (68719476735, (2140, ("deg"%string, 0, 0, 9)));
   (68719476735, (2141, ("CCITT IA5"%string, 0, 0, 24)));
   (68719476735, (2142, ("CCITT IA5"%string, 0, 0, 32)));
   (536870911, (2143, ("CODE TABLE"%string, 0, 0, 7)));
   (68182605824, (2143, ("Code table"%string, 0, 0, 7)));
   (536870911, (2144, ("CODE TABLE"%string, 0, 0, 4)));
   (68182605824, (2144, ("Code table"%string, 0, 0, 4)));
   (536870911, (2145, ("CODE TABLE"%string, 0, 0, 4)));
   (68182605824, (2145, ("Code table"%string, 0, 0, 4)));
   (536870911, (2146, ("CODE TABLE"%string, 0, 0, 4)));
   (68182605824, (2146, ("Code table"%string, 0, 0, 4)));
   (536805376, (2147, ("CODE TABLE"%string, 0, 0, 6)));
   (7936, (2147, ("CODE TABLE"%string, 0, 0, 7)));
   (68182605824, (2147, ("Code table"%string, 0, 0, 6)));
   (536870910, (2148, ("CODE TABLE"%string, 0, 0, 5)));
   (68182605824, (2148, ("Code table"%string, 0, 0, 5)));
   (536870910, (2149, ("CODE TABLE"%string, 0, 0, 6)));
   (68182605824, (2149, ("Code table"%string, 0, 0, 6)));
   (536870911, (2150, ("CODE TABLE"%string, 0, 0, 6)));
   (68182605824, (2150, ("Code table"%string, 0, 0, 6)));
   (536870911, (2151, ("CODE TABLE"%string, 0, 0, 11)));
   (68182605824, (2151, ("Code table"%string, 0, 0, 11)));
   (536870911, (2152, ("FLAG TABLE"%string, 0, 0, 31)));
   (68182605824, (2152, ("Flag table"%string, 0, 0, 31)));
   (68719476735, (2153, ("Hz"%string, -8, 0, 26)));
   (68719476735, (2154, ("Hz"%string, -8, 0, 26)));
   (68719476224, (2155, ("m"%string, 9, 0, 16)));
   (68719476735, (2156, ("%"%string, 0, 0, 7)));
   (68719476735, (2157, ("%"%string, 0, 0, 7)));
   (536870911, (2158, ("FLAG TABLE"%string, 0, 0, 9)));
   (68182605824, (2158, ("Flag table"%string, 0, 0, 9)));
   (536870911, (2159, ("FLAG TABLE"%string, 0, 0, 8)));
   (68182605824, (2159, ("Flag table"%string, 0, 0, 8)));
   (1, (2160, ("CODE TABLE"%string, 0, 0, 2)));
   (536870910, (2160, ("CODE TABLE"%string, 0, 0, 4)));
   (68182605824, (2160, ("Code table"%string, 0, 0, 4)));
   (528482304, (2161, ("FLAG TABLE"%string, 0, 0, 16)));
   (68182605824, (2161, ("Flag table"%string, 0, 0, 16)));
   (528482304, (2162, ("CODE TABLE"%string, 0, 0, 6)));
   (68182605824, (2162, ("Code table"%string, 0, 0, 6)));
   (536870911, (2163, ("CODE TABLE"%string, 0, 0, 4)));
   (68182605824, (2163, ("Code table"%string, 0, 0, 4)));
   (536870911, (2164, ("CODE TABLE"%string, 0, 0, 3)));
   (68182605824, (2164, ("Code table"%string, 0, 0, 3)));
   (536870656, (2165, ("FLAG TABLE"%string, 0, 0, 15)));
   (68182605824, (2165, ("Flag table"%string, 0, 0, 15)));
   (536870911, (2166, ("CODE TABLE"%string, 0, 0, 4)));
   (68182605824, (2166, ("Code table"%string, 0, 0, 4)));
   (536870911, (2167, ("CODE TABLE"%string, 0, 0, 4)));
   (68182605824, (2167, ("Code table"%string, 0, 0, 4)));
   (68719476735, (2168, ("Pa"%string, -3, 0, 16)));
   (536870911, (2169, ("CODE TABLE"%string, 0, 0, 4)));
   (68182605824, (2169, ("Code table"%string, 0, 0, 4)));
   (536866816, (2170, ("CODE TABLE"%string, 0, 0, 6)));
   (68182605824, (2170, ("Code table"%string, 0, 0, 6)));
   (68719476480, (2171, ("CCITT IA5"%string, 0, 0, 64)));
   (549755813888, (2171, ("CODE TABLE"%string, 0, 0, 4)));
   (536870911, (2172, ("CODE TABLE"%string, 0, 0, 8)));
   (68182605824, (2172, ("Code table"%string, 0, 0, 8)));
   (68719476734, (2173, ("deg2"%string, 4, 0, 10)));
   (68719476734, (2174, ("Numeric"%string, 0, 0, 9)));
   (536870910, (2175, ("CODE TABLE"%string, 0, 0, 4)));
   (68182605824, (2175, ("Code table"%string, 0, 0, 4)));
   (536870910, (2176, ("CODE TABLE"%string, 0, 0, 4)));
   (68182605824, (2176, ("Code table"%string, 0, 0, 4)));
   (536870910, (2177, ("CODE TABLE"%string, 0, 0, 4)));
   (68182605824, (2177, ("Code table"%string, 0, 0, 4)));
   (536870910, (2178, ("CODE TABLE"%string, 0, 0, 4)));
   (68182605824, (2178, ("Code table"%string, 0, 0, 4)));
   (536870910, (2179, ("CODE TABLE"%string, 0, 0, 4)));
   (68182605824, (2179, ("Code table"%string, 0, 0, 4)));
   (536870910, (2180, ("CODE TABLE"%string, 0, 0, 4)));
   (68182605824, (2180, ("Code table"%string, 0, 0, 4)));
   (536870910, (2181, ("FLAG TABLE"%string, 0, 0, 21)));
   (68182605824, (2181, ("Flag table"%string, 0, 0, 21)));
   (536870910, (2182, ("CODE TABLE"%string, 0, 0, 4)));
   (68182605824, (2182, ("Code table"%string, 0, 0, 4)));
   (536870910, (2183, ("CODE TABLE"%string, 0, 0, 4)));
   (68182605824, (2183, ("Code table"%string, 0, 0, 4)));
   (536870910, (2184, ("CODE TABLE"%string, 0, 0, 4)));
   (68182605824, (2184, ("Code table"%string, 0, 0, 4)));
   (536870910, (2185, ("CODE TABLE"%string, 0, 0, 4)));
   (68182605824, (2185, ("Code table"%string, 0, 0, 4)));
   (536870910, (2186, ("FLAG TABLE"%string, 0, 0, 30)));
   (68182605824, (2186, ("Flag table"%string, 0, 0, 30)));
   (536870910, (2187, ("FLAG TABLE"%string, 0, 0, 18)));
   (68182605824, (2187, ("Flag table"%string, 0, 0, 18)));
   (536870910, (2188, ("FLAG TABLE"%string, 0, 0, 21)));
   (68182605824, (2188, ("Flag table"%string, 0, 0, 21)));
   (536870910, (2189, ("FLAG TABLE"%string, 0, 0, 12)));
   (68182605824, (2189, ("Flag table"%string, 0, 0, 12)));
   (68719476734, (2190, ("%"%string, 0, 0, 7)));
   (536870400, (2191, ("CODE TABLE"%string, 0, 0, 4)));
   (68182605824, (2191, ("Code table"%string, 0, 0, 4)));
   (618475290624, (2192, ("deg"%string, 0, 0, 9)));
   (618475290624, (2193, ("FLAG TABLE"%string, 0, 0, 28)));
   (618475290624, (2194, ("CODE TABLE"%string, 0, 0, 4)));
   (618475290624, (2195, ("CODE TABLE"%string, 0, 0, 4)));
   (618475290624, (2196, ("CODE TABLE"%string, 0, 0, 9)));
   (618475290624, (2197, ("Hz"%string, -8, 0, 26)));
   (618475290624, (2198, ("Hz"%string, -8, 0, 26)));
   (618475290624, (2199, ("CODE TABLE"%string, 0, 0, 4)));
   (68719476736, (2200, ("deg"%string, 5, 0, 25)));
   (549755813888, (2201, ("FLAG TABLE"%string, 0, 0, 4)));
   (68719476736, (2201, ("deg"%string, 5, 0, 25)));
   (618475290624, (2202, ("FLAG TABLE"%string, 0, 0, 4)));
   (68719476736, (2205, ("deg"%string, 3, 0, 9)));
   (68719476736, (2206, ("deg"%string, 3, 0, 9)));
   (68719476736, (2207, ("CODE TABLE"%string, 0, 0, 3)));
   (618475290624, (2220, ("CODE TABLE"%string, 0, 0, 9)));
   (618475290624, (2221, ("m"%string, 0, 0, 18)));
   (618475290624, (2222, ("m"%string, 0, 0, 18)));
   (618475290624, (2223, ("CODE TABLE"%string, 0, 0, 6)));
   (68719476736, (2224, ("deg"%string, 2, 0, 16)));
   (68719476736, (2225, ("deg"%string, 2, 0, 16)));
   (68719476736, (2226, ("deg"%string, 2, 0, 16)));
   (618475290624, (2231, ("CODE TABLE"%string, 0, 0, 4)));
   (618475290624, (2232, ("CODE TABLE"%string, 0, 0, 3)));
   (618475290624, (2240, ("CODE TABLE"%string, 0, 0, 8)));
   (618475290624, (2241, ("CODE TABLE"%string, 0, 0, 3)));
   (618475290624, (2242, ("CODE TABLE"%string, 0, 0, 8)));
   (618475290624, (2243, ("CODE TABLE"%string, 0, 0, 3)));
   (618475290624, (2244, ("CODE TABLE"%string, 0, 0, 3)));
   (618475290624, (2245, ("CODE TABLE"%string, 0, 0, 4)));
   (618475290624, (2251, ("CODE TABLE"%string, 0, 0, 4)));
   (618475290624, (2252, ("FLAG TABLE"%string, 0, 0, 31)));
   (618475290624, (2253, ("CODE TABLE"%string, 0, 0, 8)));
   (618475290624, (2254, ("CODE TABLE"%string, 0, 0, 4)));
   (534773760, (3001, ("CODE TABLE"%string, 0, 0, 5)));
   (68182605824, (3001, ("Code table"%string, 0, 0, 5)));
   (534773760, (3003, ("CODE TABLE"%string, 0, 0, 4)));
   (68182605824, (3003, ("Code table"%string, 0, 0, 4)));
   (534773760, (3004, ("CODE TABLE"%string, 0, 0, 4)));
   (68182605824, (3004, ("Code table"%string, 0, 0, 4)));
   (68717379584, (3005, ("m"%string, 3, 0, 16)));
   (68717379584, (3006, ("m"%string, 3, 0, 16)));
   (68717379584, (3007, ("m"%string, 3, 0, 16)));
   (534773760, (3008, ("CODE TABLE"%string, 0, 0, 3)));
   (68182605824, (3008, ("Code table"%string, 0, 0, 3)));
   (68717379584, (3009, ("m/s"%string, 1, 0, 9)));
   (536805376, (3010, ("CODE TABLE"%string, 0, 0, 4)));
   (68182605824, (3010, ("Code table"%string, 0, 0, 4)));
   (536805376, (3011, ("CODE TABLE"%string, 0, 0, 2)));
   (68182605824, (3011, ("Code table"%string, 0, 0, 2)));
   (536805376, (3012, ("CODE TABLE"%string, 0, 0, 4)));
   (68182605824, (3012, ("Code table"%string, 0, 0, 4)));
   (535822336, (3016, ("CODE TABLE"%string, 0, 0, 4)));
   (68182605824, (3016, ("Code table"%string, 0, 0, 4)));
   (535822336, (3017, ("FLAG TABLE"%string, 0, 0, 6)));
   (68182605824, (3017, ("Flag table"%string, 0, 0, 6)));
   (535822336, (3018, ("CODE TABLE"%string, 0, 0, 5)));
   (68182605824, (3018, ("Code table"%string, 0, 0, 5)));
   (535822336, (3019, ("CODE TABLE"%string, 0, 0, 4)));
   (68182605824, (3019, ("Code table"%string, 0, 0, 4)));
   (534773760, (3020, ("CODE TABLE"%string, 0, 0, 3)));
   (68182605824, (3020, ("Code table"%string, 0, 0, 3)));
   (534773760, (3021, ("CODE TABLE"%string, 0, 0, 2)));
   (68182605824, (3021, ("Code table"%string, 0, 0, 2)));
   (534773760, (3022, ("CODE TABLE"%string, 0, 0, 3)));
   (68182605824, (3022, ("Code table"%string, 0, 0, 3)));
   (534773760, (3023, ("CODE TABLE"%string, 0, 0, 3)));
   (68182605824, (3023, ("Code table"%string, 0, 0, 3)));
   (68717379584, (3024, ("K-1"%string, 6, 0, 10)));
   (68717379584, (3025, ("m"%string, 0, 5000, 16)));
   (68717379584, (3026, ("m"%string, 0, 5000, 16)));
   (532676608, (3027, ("CODE TABLE"%string, 0, 0, 4)));
   (68182605824, (3027, ("Code table"%string, 0, 0, 4)));
   (503316480, (3028, ("CODE TABLE"%string, 0, 0, 6)));
   (68182605824, (3028, ("Code table"%string, 0, 0, 6)));
   (51539607552, (3029, ("Code table"%string, 0, 0, 3)));
   (51539607552, (3030, ("Code table"%string, 0, 0, 3)));
   (34359738368, (3031, ("m"%string, 11, 0, 16)));
   (34359738368, (3032, ("Hz"%string, -6, 0, 26)));
   (34359738368, (3033, ("Hz"%string, -6, 0, 26)));
   (34359738368, (3034, ("m"%string, 9, 0, 16)));
   (68719476735, (4001, ("a"%string, 0, 0, 12)));
   (68719476735, (4002, ("mon"%string, 0, 0, 4)));
   (68719476735, (4003, ("d"%string, 0, 0, 6)));
   (68719476735, (4004, ("h"%string, 0, 0, 5)));
   (68719476735, (4005, ("min"%string, 0, 0, 6)));
   (68719476735, (4006, ("s"%string, 0, 0, 6)));
   (68719476734, (4007, ("s"%string, 6, 0, 26)));
   (7936, (4008, ("s"%string, 7, 0, 30)));
   (68719476735, (4011, ("a"%string, 0, -1024, 11)));
   (68719476735, (4012, ("mon"%string, 0, -1024, 11)));
   (68719476735, (4013, ("d"%string, 0, -1024, 11)));
   (68719476735, (4014, ("h"%string, 0, -1024, 11)));
   (68719476735, (4015, ("min"%string, 0, -2048, 12)));
   (68719476735, (4016, ("s"%string, 0, -4096, 13)));
   (68719476734, (4017, ("min"%string, 0, -1440, 12)));
   (68719476735, (4021, ("a"%string, 0, -1024, 11)));
   (68719476735, (4022, ("mon"%string, 0, -1024, 11)));
   (68719476735, (4023, ("d"%string, 0, -1024, 11)));
   (68719476735, (4024, ("h"%string, 0, -2048, 12)));
   (68719476735, (4025, ("min"%string, 0, -2048, 12)));
   (68719476735, (4026, ("s"%string, 0, -4096, 13)));
   (68719476735, (4031, ("h"%string, 0, 0, 8)));
   (68719476735, (4032, ("min"%string, 0, 0, 6)));
   (68719476735, (4041, ("min"%string, 0, -1440, 12)));
   (68719476735, (4043, ("d"%string, 0, 0, 9)));
   (68719476734, (4051, ("h"%string, 0, 0, 5)));
   (68719476734, (4052, ("h"%string, 0, 0, 5)));
   (68719476735, (4053, ("Numeric"%string, 0, 0, 6)));
   (536870910, (4059, ("FLAG TABLE"%string, 0, 0, 6)));
   (68182605824, (4059, ("Flag table"%string, 0, 0, 6)));
   (68719476734, (4065, ("min"%string, 0, -128, 8)));
   (68719476480, (4066, ("s"%string, 0, -128, 8)));
   (68719476734, (4073, ("d"%string, 0, -128, 8)));
   (68719476734, (4074, ("h"%string, 0, -128, 8)));
   (68719476734, (4075, ("min"%string, 0, -128, 8)));
   (536870910, (4080, ("CODE TABLE"%string, 0, 0, 4)));
   (68182605824, (4080, ("Code table"%string, 0, 0, 4)));
   (68719476734, (4086, ("s"%string, 0, -8192, 15)));
   (68719476735, (5001, ("deg"%string, 5, -9000000, 25)));
   (68719476735, (5002, ("deg"%string, 2, -9000, 15)));
   (68719476735, (5011, ("deg"%string, 5, -9000000, 25)));
   (68719476735, (5012, ("deg"%string, 2, -9000, 15)));
   (68719476734, (5015, ("deg"%string, 5, -9000000, 25)));
   (68719476734, (5016, ("deg"%string, 2, -9000, 15)));
   (536870911, (5021, ("deg"%string, 2, 0, 16)));
   (68182605824, (5021, ("degree true"%string, 2, 0, 16)));
   (536870911, (5022, ("deg"%string, 2, 0, 16)));
   (68182605824, (5022, ("degree true"%string, 2, 0, 16)));
   (68719476734, (5023, ("deg"%string, 1, -1800, 12)));
   (68719476735, (5030, ("deg"%string, 0, 0, 12)));
   (68719476735, (5031, ("Numeric"%string, 0, 0, 12)));
   (68717379584, (5032, ("m"%string, 2, -1073741824, 31)));
   (68719476735, (5033, ("m"%string, -1, 0, 16)));
   (68719476735, (5034, ("Numeric"%string, 0, 0, 11)));
   (68719476480, (5035, ("Numeric"%string, 0, 0, 12)));
   (68719476734, (5036, ("Numeric"%string, 0, 0, 7)));
   (68719476735, (5040, ("Numeric"%string, 0, 0, 24)));
   (68719476735, (5041, ("Numeric"%string, 0, 0, 8)));
   (68719476735, (5042, ("Numeric"%string, 0, 0, 6)));
   (68719476735, (5043, ("Numeric"%string, 0, 0, 8)));
   (68719476734, (5044, ("Numeric"%string, 0, 0, 11)));
   (68719476480, (5045, ("Numeric"%string, 0, 0, 8)));
   (68719476735, (5052, ("Numeric"%string, 0, 0, 5)));
   (68719476735, (5053, ("Numeric"%string, 0, 0, 5)));
   (68719476734, (5060, ("deg"%string, 6, -8000000, 24)));
   (68719476734, (5061, ("deg"%string, 6, -8000000, 24)));
   (68718952448, (5063, ("deg"%string, 2, 0, 16)));
   (68718952448, (5064, ("deg"%string, 2, 0, 16)));
   (68718952448, (5066, ("deg"%string, 2, 0, 16)));
   (68718952448, (5067, ("Numeric"%string, 0, 0, 8)));
   (68718428160, (5068, ("Numeric"%string, 0, 0, 16)));
   (535822336, (5069, ("CODE TABLE"%string, 0, 0, 2)));
   (68182605824, (5069, ("Code table"%string, 0, 0, 2)));
   (68718428160, (5070, ("Numeric"%string, 0, 0, 30)));
   (68717379584, (5071, ("Numeric"%string, 0, 0, 16)));
   (68717379584, (5072, ("Numeric"%string, 0, 0, 8)));
   (68717379584, (5073, ("Numeric"%string, 0, 0, 8)));
   (68717379584, (5074, ("Numeric"%string, 0, 0, 8)));
   (68717379584, (5075, ("Numeric"%string, 0, 0, 8)));
   (51539607552, (5076, ("deg"%string, 2, 0, 16)));
   (51539607552, (5077, ("deg"%string, 4, -900000, 21)));
   (51539607552, (5078, ("Numeric"%string, 0, 0, 4)));
   (51539607552, (5079, ("Numeric"%string, 0, 0, 6)));
   (51539607552, (5080, ("m"%string, -3, 0, 6)));
   (618475290624, (5193, ("Numeric"%string, 0, 0, 10)));
   (618475290624, (5194, ("Numeric"%string, 0, 0, 11)));
   (618475290624, (5195, ("Numeric"%string, 0, 0, 7)));
   (68719476736, (5196, ("deg"%string, 1, -1800, 12)));
   (618475290624, (5217, ("m"%string, 2, -1073741824, 31)));
   (618475290624, (5232, ("deg"%string, 2, 0, 16)));
   (68719476736, (5233, ("Numeric"%string, 0, 0, 8)));
   (274877906944, (5234, ("Numeric"%string, 0, 0, 16)));
   (137438953472, (5234, ("Numeric"%string, 0, 0, 32)));
   (274877906944, (5236, ("Numeric"%string, 0, 0, 30)));
   (137438953472, (5236, ("Numeric"%string, 0, 0, 32)));
   (412316860416, (5237, ("CODE TABLE"%string, 0, 0, 2)));
   (68719476735, (6001, ("deg"%string, 5, -18000000, 26)));
   (68719476735, (6002, ("deg"%string, 2, -18000, 16)));
   (68719476735, (6011, ("deg"%string, 5, -18000000, 26)));
   (68719476735, (6012, ("deg"%string, 2, -18000, 16)));
   (68719476734, (6015, ("deg"%string, 5, -18000000, 26)));
   (68719476734, (6016, ("deg"%string, 2, -18000, 16)));
   (68719476735, (6021, ("m"%string, -1, 0, 13)));
   (68719476480, (6029, ("/m"%string, 1, 0, 22)));
   (68719476735, (6030, ("rad/m"%string, 5, 0, 13)));
   (68719476735, (6031, ("Numeric"%string, 0, 0, 12)));
   (68717379584, (6032, ("m"%string, 2, -1073741824, 31)));
   (68719476735, (6033, ("m"%string, -1, 0, 16)));
   (68719476735, (6034, ("Numeric"%string, 0, 0, 7)));
   (68719476480, (6035, ("Numeric"%string, 0, 0, 12)));
   (68719476734, (6040, ("m"%string, 0, 0, 13)));
   (51539607552, (6041, ("Numeric"%string, 0, 0, 11)));
   (51539607552, (6042, ("Numeric"%string, 0, 0, 6)));
   (51539607552, (6043, ("deg"%string, 4, -1800000, 22)));
   (618475290624, (6193, ("Numeric"%string, 0, 0, 6)));
   (618475290624, (6194, ("Numeric"%string, 0, 0, 7)));
   (618475290624, (6217, ("m"%string, 2, -1073741824, 31)));
   (618475290624, (6232, ("rad/m"%string, 5, 0, 13)));
   (68719476735, (7001, ("m"%string, 0, -400, 15)));
   (68719476735, (7002, ("m"%string, -1, -40, 16)));
   (68719476735, (7003, ("m2 s-2"%string, -1, -400, 17)));
   (68719476735, (7004, ("Pa"%string, -1, 0, 14)));
   (68719476735, (7005, ("m"%string, 0, -400, 12)));
   (68719476735, (7006, ("m"%string, 0, 0, 15)));
   (68719476735, (7007, ("m"%string, 0, -1000, 17)));
   (68719476735, (7008, ("m2 s-2"%string, 0, -10000, 20)));
   (68719476734, (7009, ("gpm"%string, 0, -1000, 17)));
   (68719476734, (7010, ("m"%string, 0, -1024, 16)));
   (7936, (7011, ("Pa"%string, 0, 0, 30)));
   (68719476734, (7012, ("m"%string, 2, -50000, 20)));
   (68719476735, (7021, ("deg"%string, 2, -9000, 15)));
   (68719476735, (7022, ("deg"%string, 2, -9000, 15)));
   (68719476735, (7024, ("deg"%string, 2, -9000, 15)));
   (68719476735, (7025, ("deg"%string, 2, -9000, 15)));
   (68719476734, (7026, ("deg"%string, 4, -900000, 21)));
   (68719476734, (7030, ("m"%string, 1, -4000, 17)));
   (68719476734, (7031, ("m"%string, 1, -4000, 17)));
   (68719476734, (7032, ("m"%string, 2, 0, 16)));
   (68719476734, (7033, ("m"%string, 1, 0, 12)));
   (68719476480, (7035, ("Numeric"%string, 0, 0, 12)));
   (68719476480, (7036, ("Numeric"%string, 0, 0, 12)));
   (68719476734, (7040, ("m"%string, 1, 62000000, 22)));
   (68719476735, (7061, ("m"%string, 2, 0, 14)));
   (68719476735, (7062, ("m"%string, 1, 0, 17)));
   (68719476734, (7063, ("m"%string, 2, 0, 20)));
   (68719476734, (7064, ("m"%string, 0, 0, 4)));
   (68719476734, (7065, ("Pa"%string, -3, 0, 17)));
   (549755813888, (7065, ("m"%string, 2, 0, 16)));
   (68719476734, (7070, ("m"%string, 0, 0, 10)));
   (68718428160, (7071, ("m"%string, 3, -10000000, 26)));
   (68182605824, (7072, ("deg"%string, 2, -9000, 15)));
   (51539607552, (7073, ("deg"%string, 2, 0, 15)));
   (51539607552, (7074, ("deg"%string, 2, -9000, 15)));
   (51539607552, (7075, ("deg"%string, 0, 0, 8)));
   (51539607552, (7076, ("deg"%string, 0, 0, 8)));
   (1, (7190, ("m"%string, 1, -1024, 12)));
   (412316860416, (7200, ("m"%string, 3, -10000000, 26)));
   (618475290624, (7217, ("m"%string, 2, -1073741824, 31)));
   (536870911, (8001, ("FLAG TABLE"%string, 0, 0, 7)));
   (68182605824, (8001, ("Flag table"%string, 0, 0, 7)));
   (536870911, (8002, ("CODE TABLE"%string, 0, 0, 6)));
   (68182605824, (8002, ("Code table"%string, 0, 0, 6)));
   (536870911, (8003, ("CODE TABLE"%string, 0, 0, 6)));
   (68182605824, (8003, ("Code table"%string, 0, 0, 6)));
   (536870911, (8004, ("CODE TABLE"%string, 0, 0, 3)));
   (68182605824, (8004, ("Code table"%string, 0, 0, 3)));
   (536870911, (8005, ("CODE TABLE"%string, 0, 0, 4)));
   (68182605824, (8005, ("Code table"%string, 0, 0, 4)));
   (536870910, (8006, ("FLAG TABLE"%string, 0, 0, 9)));
   (1, (8006, ("FLAG TABLE"%string, 0, 0, 10)));
   (68182605824, (8006, ("Flag table"%string, 0, 0, 9)));
   (536870911, (8007, ("CODE TABLE"%string, 0, 0, 4)));
   (68182605824, (8007, ("Code table"%string, 0, 0, 4)));
   (536870910, (8008, ("FLAG TABLE"%string, 0, 0, 9)));
   (68182605824, (8008, ("Flag table"%string, 0, 0, 9)));
   (536870910, (8009, ("CODE TABLE"%string, 0, 0, 4)));
   (68182605824, (8009, ("Code table"%string, 0, 0, 4)));
   (536870910, (8010, ("CODE TABLE"%string, 0, 0, 5)));
   (68182605824, (8010, ("Code table"%string, 0, 0, 5)));
   (536870911, (8011, ("CODE TABLE"%string, 0, 0, 6)));
   (68182605824, (8011, ("Code table"%string, 0, 0, 6)));
   (536870911, (8012, ("CODE TABLE"%string, 0, 0, 2)));
   (68182605824, (8012, ("Code table"%string, 0, 0, 2)));
   (536870911, (8013, ("CODE TABLE"%string, 0, 0, 2)));
   (68182605824, (8013, ("Code table"%string, 0, 0, 2)));
   (536870911, (8014, ("CODE TABLE"%string, 0, 0, 4)));
   (68182605824, (8014, ("Code table"%string, 0, 0, 4)));
   (536813312, (8015, ("CODE TABLE"%string, 0, 0, 3)));
   (68182605824, (8015, ("Code table"%string, 0, 0, 3)));
   (536870911, (8016, ("CODE TABLE"%string, 0, 0, 3)));
   (68182605824, (8016, ("Code table"%string, 0, 0, 3)));
   (536870911, (8017, ("CODE TABLE"%string, 0, 0, 2)));
   (68182605824, (8017, ("Code table"%string, 0, 0, 2)));
   (536870911, (8018, ("FLAG TABLE"%string, 0, 0, 17)));
   (68182605824, (8018, ("Flag table"%string, 0, 0, 17)));
   (536870910, (8019, ("CODE TABLE"%string, 0, 0, 4)));
   (68182605824, (8019, ("Code table"%string, 0, 0, 4)));
   (68719476735, (8020, ("Numeric"%string, 0, 0, 16)));
   (536870911, (8021, ("CODE TABLE"%string, 0, 0, 5)));
   (68182605824, (8021, ("Code table"%string, 0, 0, 5)));
   (68719476735, (8022, ("Numeric"%string, 0, 0, 16)));
   (536870911, (8023, ("CODE TABLE"%string, 0, 0, 6)));
   (68182605824, (8023, ("Code table"%string, 0, 0, 6)));
   (536870911, (8024, ("CODE TABLE"%string, 0, 0, 6)));
   (68182605824, (8024, ("Code table"%string, 0, 0, 6)));
   (536870911, (8025, ("CODE TABLE"%string, 0, 0, 4)));
   (68182605824, (8025, ("Code table"%string, 0, 0, 4)));
   (536870910, (8026, ("CODE TABLE"%string, 0, 0, 6)));
   (68182605824, (8026, ("Code table"%string, 0, 0, 6)));
   (7936, (8027, ("CODE TABLE"%string, 0, 0, 6)));
   (536870910, (8029, ("CODE TABLE"%string, 0, 0, 8)));
   (68182605824, (8029, ("Code table"%string, 0, 0, 8)));
   (68719476735, (8030, ("Numeric"%string, 0, 0, 13)));
   (68719476734, (8031, ("Numeric"%string, 0, 0, 8)));
   (536813312, (8032, ("CODE TABLE"%string, 0, 0, 4)));
   (68182605824, (8032, ("Code table"%string, 0, 0, 4)));
   (536870911, (8033, ("CODE TABLE"%string, 0, 0, 7)));
   (68182605824, (8033, ("Code table"%string, 0, 0, 7)));
   (536346624, (8034, ("CODE TABLE"%string, 0, 0, 4)));
   (68182605824, (8034, ("Code table"%string, 0, 0, 4)));
   (536870910, (8035, ("CODE TABLE"%string, 0, 0, 3)));
   (68182605824, (8035, ("Code table"%string, 0, 0, 3)));
   (536870910, (8036, ("CODE TABLE"%string, 0, 0, 3)));
   (68182605824, (8036, ("Code table"%string, 0, 0, 3)));
   (532676608, (8037, ("CODE TABLE"%string, 0, 0, 5)));
   (68182605824, (8037, ("Code table"%string, 0, 0, 5)));
   (532676608, (8038, ("CODE TABLE"%string, 0, 0, 8)));
   (68182605824, (8038, ("Code table"%string, 0, 0, 8)));
   (536870910, (8039, ("CODE TABLE"%string, 0, 0, 6)));
   (68182605824, (8039, ("Code table"%string, 0, 0, 6)));
   (536870910, (8040, ("CODE TABLE"%string, 0, 0, 6)));
   (68182605824, (8040, ("Code table"%string, 0, 0, 6)));
   (536870910, (8041, ("CODE TABLE"%string, 0, 0, 5)));
   (68182605824, (8041, ("Code table"%string, 0, 0, 5)));
   (536870910, (8042, ("FLAG TABLE"%string, 0, 0, 18)));
   (68182605824, (8042, ("Flag table"%string, 0, 0, 18)));
   (536870910, (8043, ("CODE TABLE"%string, 0, 0, 8)));
   (68182605824, (8043, ("Code table"%string, 0, 0, 8)));
   (68719476734, (8044, ("CCITT IA5"%string, 0, 0, 88)));
   (8190, (8045, ("CODE TABLE"%string, 0, 0, 8)));
   (34359738368, (8045, ("Code table"%string, 0, 0, 8)));
   (536870656, (8046, ("Common CODE TABLE C-14"%string, 0, 0, 16)));
   (68182605824, (8046, ("Common Code table C-14"%string, 0, 0, 16)));
   (68719476734, (8049, ("Numeric"%string, 0, 0, 8)));
   (536870910, (8050, ("CODE TABLE"%string, 0, 0, 4)));
   (68182605824, (8050, ("Code table"%string, 0, 0, 4)));
   (536870911, (8051, ("CODE TABLE"%string, 0, 0, 3)));
   (68182605824, (8051, ("Code table"%string, 0, 0, 3)));
   (536870911, (8052, ("CODE TABLE"%string, 0, 0, 5)));
   (68182605824, (8052, ("Code table"%string, 0, 0, 5)));
   (536870911, (8053, ("CODE TABLE"%string, 0, 0, 2)));
   (68182605824, (8053, ("Code table"%string, 0, 0, 2)));
   (536870910, (8054, ("CODE TABLE"%string, 0, 0, 3)));
   (68182605824, (8054, ("Code table"%string, 0, 0, 3)));
   (536870911, (8060, ("CODE TABLE"%string, 0, 0, 4)));
   (68182605824, (8060, ("Code table"%string, 0, 0, 4)));
   (536870910, (8065, ("CODE TABLE"%string, 0, 0, 2)));
   (68182605824, (8065, ("Code table"%string, 0, 0, 2)));
   (1, (8065, ("FLAG TABLE"%string, 0, 0, 12)));
   (536870910, (8066, ("CODE TABLE"%string, 0, 0, 2)));
   (1, (8066, ("CODE TABLE"%string, 0, 0, 3)));
   (68182605824, (8066, ("Code table"%string, 0, 0, 2)));
   (536870911, (8070, ("CODE TABLE"%string, 0, 0, 4)));
   (68182605824, (8070, ("Code table"%string, 0, 0, 4)));
   (34359738368, (8071, ("Code table"%string, 0, 0, 3)));
   (536870911, (8072, ("CODE TABLE"%string, 0, 0, 3)));
   (68182605824, (8072, ("Code table"%string, 0, 0, 3)));
   (536870910, (8074, ("CODE TABLE"%string, 0, 0, 2)));
   (68182605824, (8074, ("Code table"%string, 0, 0, 2)));
   (536870910, (8075, ("CODE TABLE"%string, 0, 0, 2)));
   (68182605824, (8075, ("Code table"%string, 0, 0, 2)));
   (536870910, (8076, ("CODE TABLE"%string, 0, 0, 6)));
   (68182605824, (8076, ("Code table"%string, 0, 0, 6)));
   (536870910, (8077, ("CODE TABLE"%string, 0, 0, 7)));
   (68182605824, (8077, ("Code table"%string, 0, 0, 7)));
   (549755813888, (8079, ("CODE TABLE"%string, 0, 0, 3)));
   (536870910, (8079, ("CODE TABLE"%string, 0, 0, 4)));
   (68182605824, (8079, ("Code table"%string, 0, 0, 4)));
   (536870910, (8080, ("CODE TABLE"%string, 0, 0, 6)));
   (68182605824, (8080, ("Code table"%string, 0, 0, 6)));
   (536870910, (8081, ("CODE TABLE"%string, 0, 0, 6)));
   (68182605824, (8081, ("Code table"%string, 0, 0, 6)));
   (536870910, (8082, ("CODE TABLE"%string, 0, 0, 3)));
   (68182605824, (8082, ("Code table"%string, 0, 0, 3)));
   (536870910, (8083, ("FLAG TABLE"%string, 0, 0, 15)));
   (68182605824, (8083, ("Flag table"%string, 0, 0, 15)));
   (536870910, (8085, ("CODE TABLE"%string, 0, 0, 3)));
   (68182605824, (8085, ("Code table"%string, 0, 0, 3)));
   (536870400, (8086, ("FLAG TABLE"%string, 0, 0, 12)));
   (68182605824, (8086, ("Flag table"%string, 0, 0, 12)));
   (536739840, (8087, ("CODE TABLE"%string, 0, 0, 3)));
   (68182605824, (8087, ("Code table"%string, 0, 0, 3)));
   (534773760, (8088, ("CODE TABLE"%string, 0, 0, 6)));
   (68182605824, (8088, ("Code table"%string, 0, 0, 6)));
   (68719476734, (8090, ("Numeric"%string, 0, -127, 8)));
   (536346624, (8091, ("CODE TABLE"%string, 0, 0, 8)));
   (68182605824, (8091, ("Code table"%string, 0, 0, 8)));
   (532676608, (8092, ("CODE TABLE"%string, 0, 0, 5)));
   (68182605824, (8092, ("Code table"%string, 0, 0, 5)));
   (532676608, (8093, ("CODE TABLE"%string, 0, 0, 5)));
   (68182605824, (8093, ("Code table"%string, 0, 0, 5)));
   (64424509440, (8094, ("Code table"%string, 0, 0, 8)));
   (64424509440, (8095, ("Code table"%string, 0, 0, 8)));
   (64424509440, (8096, ("Code table"%string, 0, 0, 8)));
   (60129542144, (8097, ("Code table"%string, 0, 0, 7)));
   (51539607552, (8098, ("Code table"%string, 0, 0, 4)));
   (51539607552, (8099, ("Code table"%string, 0, 0, 4)));
   (618475290624, (8193, ("CODE TABLE"%string, 0, 0, 6)));
   (618475290624, (8194, ("CODE TABLE"%string, 0, 0, 4)));
   (618475290624, (8195, ("CODE TABLE"%string, 0, 0, 7)));
   (618475290624, (8200, ("Numeric"%string, 0, 0, 8)));
   (137438953472, (8201, ("CODE TABLE"%string, 0, 0, 4)));
   (274877906944, (8201, ("CODE TABLE"%string, 0, 0, 8)));
   (68719476736, (8201, ("CODE TABLE"%string, 0, 0, 15)));
   (618475290624, (8222, ("CODE TABLE"%string, 0, 0, 4)));
   (618475290624, (8223, ("FLAG TABLE"%string, 0, 0, 7)));
   (618475290624, (8224, ("Numeric"%string, 3, 0, 10)));
   (68719476736, (8225, ("FLAG TABLE"%string, 0, 0, 5)));
   (68719476735, (10001, ("m"%string, 0, -400, 15)));
   (68719476735, (10002, ("m"%string, -1, -40, 16)));
   (68719476735, (10003, ("m2 s-2"%string, -1, -400, 17)));
   (68719476735, (10004, ("Pa"%string, -1, 0, 14)));
   (68719476735, (10007, ("m"%string, 0, -1000, 17)));
   (68719476735, (10008, ("m2 s-2"%string, 0, -10000, 20)));
   (68719476734, (10009, ("gpm"%string, 0, -1000, 17)));
   (68719476734, (10010, ("Pa"%string, -1, 0, 14)));
   (68719476734, (10011, ("Pa"%string, -1, 0, 14)));
   (7936, (10012, ("m"%string, 0, -1525, 13)));
   (68719476735, (10031, ("m"%string, 2, -1073741824, 31)));
   (68719476734, (10032, ("m"%string, 1, 0, 27)));
   (68719476734, (10033, ("m"%string, 1, 0, 27)));
   (68719476734, (10034, ("m"%string, 1, 0, 27)));
   (68719476734, (10035, ("m"%string, 1, 62000000, 22)));
   (68719476734, (10036, ("m"%string, 2, -15000, 15)));
   (68717379584, (10038, ("m"%string, 0, 0, 6)));
   (68717379584, (10039, ("m"%string, 0, -32, 6)));
   (68719476735, (10040, ("Numeric"%string, 0, 0, 10)));
   (68719476735, (10050, ("m"%string, 2, 0, 16)));
   (68719476735, (10051, ("Pa"%string, -1, 0, 14)));
   (68719476735, (10052, ("Pa"%string, -1, 0, 14)));
   (68719476480, (10053, ("m"%string, 0, -1000, 17)));
   (68719476735, (10060, ("Pa"%string, -1, -1024, 11)));
   (68719476735, (10061, ("Pa"%string, -1, -500, 10)));
   (68719476735, (10062, ("Pa"%string, -1, -1000, 11)));
   (536870911, (10063, ("CODE TABLE"%string, 0, 0, 4)));
   (68182605824, (10063, ("Code table"%string, 0, 0, 4)));
   (536870910, (10064, ("CODE TABLE"%string, 0, 0, 3)));
   (68182605824, (10064, ("Code table"%string, 0, 0, 3)));
   (68719476735, (10070, ("m"%string, 0, -400, 16)));
   (68715282432, (10071, ("m"%string, 0, 0, 14)));
   (34359738368, (10073, ("m"%string, 2, 0, 21)));
   (68719468544, (10079, ("deg"%string, 4, 0, 16)));
   (68719476734, (10080, ("deg"%string, 2, -9000, 15)));
   (68719476734, (10081, ("m"%string, 3, 0, 31)));
   (68719476734, (10082, ("m/s"%string, 3, -65536, 17)));
   (549755813888, (10083, ("deg"%string, 2, -36000, 17)));
   (68719476734, (10083, ("deg2"%string, 2, 0, 16)));
   (549755813888, (10084, ("deg"%string, 2, -36000, 17)));
   (68719476734, (10084, ("deg2"%string, 2, 0, 16)));
   (68719476734, (10085, ("m"%string, 3, -131072, 18)));
   (68719476734, (10086, ("m"%string, 3, -131072, 18)));
   (68719476734, (10087, ("m"%string, 1, -131072, 18)));
   (68719476734, (10088, ("m"%string, 3, -32768, 16)));
   (68719476734, (10089, ("m"%string, 3, -32768, 16)));
   (68719476734, (10090, ("m"%string, 3, -32768, 16)));
   (68719476734, (10091, ("m"%string, 3, -32768, 16)));
   (68719476734, (10092, ("m"%string, 3, -32768, 16)));
   (68719476734, (10093, ("m"%string, 3, -32768, 16)));
   (68719476734, (10095, ("m"%string, 0, 0, 16)));
   (68719476734, (10096, ("m"%string, 3, -131072, 18)));
   (68719476734, (10097, ("m"%string, 3, -131072, 18)));
   (68719476734, (10098, ("m"%string, 4, -2000, 12)));
   (68719476734, (10099, ("m"%string, 4, -2000, 12)));
   (68719476734, (10100, ("m"%string, 4, -2000, 12)));
   (68719476734, (10101, ("deg2"%string, 2, -32768, 16)));
   (68719476480, (10102, ("m"%string, 3, -32768, 16)));
   (68685922304, (10103, ("m"%string, 3, -131072, 18)));
   (618475290624, (10195, ("m"%string, 1, -4096, 20)));
   (618475290624, (10196, ("deg"%string, 2, -9000, 15)));
   (618475290624, (10197, ("m"%string, 0, 0, 9)));
   (68719476736, (10200, ("Pa"%string, -1, 0, 14)));
   (536870911, (11001, ("deg"%string, 0, 0, 9)));
   (68182605824, (11001, ("degree true"%string, 0, 0, 9)));
   (68719476735, (11002, ("m/s"%string, 1, 0, 12)));
   (68719476735, (11003, ("m/s"%string, 1, -4096, 13)));
   (68719476735, (11004, ("m/s"%string, 1, -4096, 13)));
   (68719476735, (11005, ("Pa/s"%string, 1, -512, 10)));
   (68719476735, (11006, ("m/s"%string, 2, -4096, 13)));
   (68717379584, (11007, ("deg"%string, 0, 0, 9)));
   (68717379584, (11008, ("m/s"%string, 1, 0, 12)));
   (536870910, (11010, ("deg"%string, 0, 0, 9)));
   (68182605824, (11010, ("degree true"%string, 0, 0, 9)));
   (536870911, (11011, ("deg"%string, 0, 0, 9)));
   (68182605824, (11011, ("degree true"%string, 0, 0, 9)));
   (68719476735, (11012, ("m/s"%string, 1, 0, 12)));
   (536870911, (11013, ("deg"%string, 0, 0, 9)));
   (68182605824, (11013, ("degree true"%string, 0, 0, 9)));
   (68719476735, (11014, ("m/s"%string, 1, 0, 12)));
   (536870911, (11016, ("deg"%string, 0, 0, 9)));
   (68182605824, (11016, ("degree true"%string, 0, 0, 9)));
   (536870911, (11017, ("deg"%string, 0, 0, 9)));
   (68182605824, (11017, ("degree true"%string, 0, 0, 9)));
   (68719476734, (11019, ("%"%string, 0, 0, 7)));
   (68719476735, (11021, ("/s"%string, 9, -65536, 17)));
   (68719476735, (11022, ("/s"%string, 9, -65536, 17)));
   (68719476735, (11023, ("m2/s"%string, -2, -65536, 17)));
   (536870910, (11030, ("CODE TABLE"%string, 0, 0, 6)));
   (68182605824, (11030, ("Code table"%string, 0, 0, 6)));
   (536870911, (11031, ("CODE TABLE"%string, 0, 0, 4)));
   (68182605824, (11031, ("Code table"%string, 0, 0, 4)));
   (68719476735, (11032, ("m"%string, -1, -40, 16)));
   (68719476735, (11033, ("m"%string, -1, -40, 16)));
   (68719476735, (11034, ("m/s"%string, 1, -1024, 11)));
   (68719476735, (11035, ("m s-2"%string, 2, -8192, 14)));
   (68719476735, (11036, ("m/s"%string, 1, 0, 10)));
   (536870910, (11037, ("CODE TABLE"%string, 0, 0, 6)));
   (68182605824, (11037, ("Code table"%string, 0, 0, 6)));
   (536870910, (11038, ("CODE TABLE"%string, 0, 0, 5)));
   (68182605824, (11038, ("Code table"%string, 0, 0, 5)));
   (536870910, (11039, ("CODE TABLE"%string, 0, 0, 6)));
   (68182605824, (11039, ("Code table"%string, 0, 0, 6)));
   (68719476734, (11040, ("m/s"%string, 1, 0, 12)));
   (68719476735, (11041, ("m/s"%string, 1, 0, 12)));
   (68719476735, (11042, ("m/s"%string, 1, 0, 12)));
   (536870911, (11043, ("deg"%string, 0, 0, 9)));
   (68182605824, (11043, ("degree true"%string, 0, 0, 9)));
   (536870911, (11044, ("deg"%string, 0, 0, 9)));
   (68182605824, (11044, ("degree true"%string, 0, 0, 9)));
   (68719476735, (11045, ("m/s"%string, 1, 0, 12)));
   (68719476734, (11046, ("m/s"%string, 1, 0, 12)));
   (68719476734, (11047, ("m/s"%string, 1, 0, 12)));
   (536870911, (11049, ("deg"%string, 0, 0, 9)));
   (68182605824, (11049, ("degree true"%string, 0, 0, 9)));
   (68719476735, (11050, ("m/s"%string, 1, 0, 12)));
   (68719476735, (11051, ("m/s"%string, 1, 0, 8)));
   (68719476735, (11052, ("m/s"%string, 2, 0, 13)));
   (536870911, (11053, ("deg"%string, 2, 0, 15)));
   (68182605824, (11053, ("degree true"%string, 2, 0, 15)));
   (536870910, (11054, ("deg"%string, 0, 0, 9)));
   (68182605824, (11054, ("degree true"%string, 0, 0, 9)));
   (68719476734, (11055, ("m/s"%string, 1, 0, 12)));
   (68719476735, (11061, ("m/s"%string, 1, 0, 12)));
   (68719476735, (11062, ("m/s"%string, 1, 0, 12)));
   (68719476735, (11070, ("CCITT IA5"%string, 0, 0, 32)));
   (68719476735, (11071, ("m2 s-2"%string, 3, -128, 14)));
   (68719476735, (11072, ("K m s-1"%string, 3, -128, 11)));
   (68719476735, (11073, ("m2 s-2"%string, 2, -1024, 13)));
   (68719476735, (11074, ("m2 s-2"%string, 2, -1024, 10)));
   (68719476735, (11075, ("m2/3 s-1"%string, 2, 0, 8)));
   (68719476735, (11076, ("m2/3 s-1"%string, 2, 0, 8)));
   (68719476734, (11077, ("s"%string, 0, 0, 12)));
   (536870911, (11081, ("deg"%string, 2, 0, 16)));
   (68182605824, (11081, ("degree true"%string, 2, 0, 16)));
   (68719476735, (11082, ("m/s"%string, 2, 0, 14)));
   (68719476734, (11083, ("km/h"%string, 0, 0, 9)));
   (68719476734, (11084, ("kt"%string, 0, 0, 8)));
   (68719476734, (11085, ("km/h"%string, 0, 0, 9)));
   (68719476734, (11086, ("kt"%string, 0, 0, 8)));
   (68719476734, (11095, ("m/s"%string, 1, -4096, 13)));
   (68719476734, (11096, ("m/s"%string, 1, -4096, 13)));
   (68719476734, (11097, ("m/s"%string, 2, 0, 12)));
   (68719476734, (11098, ("m/s"%string, 2, 0, 12)));
   (68719476480, (11100, ("m/s"%string, 1, 0, 12)));
   (68719476480, (11101, ("m/s"%string, 1, -4096, 13)));
   (68719476480, (11102, ("m/s"%string, 1, -4096, 13)));
   (68719476480, (11103, ("m/s"%string, 1, -512, 10)));
   (536870656, (11104, ("deg"%string, 0, 0, 9)));
   (68182605824, (11104, ("degree true"%string, 0, 0, 9)));
   (68719476480, (11105, ("Numeric"%string, 0, 0, 6)));
   (68719476480, (11106, ("Numeric"%string, 1, 0, 4)));
   (68719476480, (11107, ("Numeric"%string, 0, 0, 5)));
   (68719476480, (11108, ("Numeric"%string, 1, 0, 4)));
   (68719476480, (11109, ("Numeric"%string, 0, 0, 4)));
   (68715282432, (11110, ("m/s"%string, 1, -4096, 13)));
   (68715282432, (11111, ("m/s"%string, 1, -4096, 13)));
   (68715282432, (11112, ("m/s"%string, 2, -4096, 13)));
   (68711088128, (11113, ("Numeric"%string, 3, -1000, 12)));
   (618475290624, (11192, ("m/s"%string, 1, -4096, 13)));
   (618475290624, (11193, ("m/s"%string, 1, -4096, 13)));
   (618475290624, (11194, ("m/s"%string, 1, -4096, 13)));
   (618475290624, (11195, ("%"%string, 0, 0, 7)));
   (618475290624, (11196, ("m/s"%string, 5, 0, 19)));
   (618475290624, (11201, ("m/s"%string, 1, -4096, 13)));
   (618475290624, (11210, ("m/s"%string, 2, 0, 12)));
   (618475290624, (11211, ("m/s"%string, 2, 0, 12)));
   (618475290624, (11220, ("m/s"%string, 2, 0, 12)));
   (618475290624, (11221, ("deg"%string, 2, 0, 15)));
   (618475290624, (11230, ("m/s"%string, 1, -4096, 13)));
   (618475290624, (11231, ("m/s"%string, 1, -4096, 13)));
   (618475290624, (11232, ("m/s"%string, 1, -4096, 13)));
   (618475290624, (11233, ("m/s"%string, 1, -4096, 13)));
   (68719476735, (12001, ("K"%string, 1, 0, 12)));
   (68719476735, (12002, ("K"%string, 1, 0, 12)));
   (68719476735, (12003, ("K"%string, 1, 0, 12)));
   (68719476735, (12004, ("K"%string, 1, 0, 12)));
   (68719476735, (12005, ("K"%string, 1, 0, 12)));
   (68719476735, (12006, ("K"%string, 1, 0, 12)));
   (68719476735, (12007, ("K"%string, 1, 0, 12)));
   (68715282432, (12008, ("K"%string, 1, 0, 12)));
   (68719476735, (12011, ("K"%string, 1, 0, 12)));
   (68719476735, (12012, ("K"%string, 1, 0, 12)));
   (68719476735, (12013, ("K"%string, 1, 0, 12)));
   (68719476735, (12014, ("K"%string, 1, 0, 12)));
   (68719476735, (12015, ("K"%string, 1, 0, 12)));
   (68719476735, (12016, ("K"%string, 1, 0, 12)));
   (68719476735, (12017, ("K"%string, 1, 0, 12)));
   (68719476734, (12021, ("K"%string, 2, 0, 16)));
   (68719476734, (12022, ("K"%string, 2, 0, 16)));
   (68719476734, (12023, ("C"%string, 0, -99, 8)));
   (68719476734, (12024, ("C"%string, 0, -99, 8)));
   (68719476735, (12030, ("K"%string, 1, 0, 12)));
   (68719476734, (12049, ("K"%string, 0, -30, 6)));
   (68719476735, (12051, ("K"%string, 1, 0, 10)));
   (68719476735, (12052, ("K"%string, 1, 0, 12)));
   (68719476735, (12053, ("K"%string, 1, 0, 12)));
   (68719419136, (12060, ("K"%string, 1, 0, 12)));
   (68719476735, (12061, ("K"%string, 1, 0, 12)));
   (68719476735, (12062, ("K"%string, 1, 0, 12)));
   (68719476735, (12063, ("K"%string, 1, 0, 12)));
   (68719476735, (12064, ("K"%string, 1, 0, 12)));
   (68719476735, (12065, ("K"%string, 1, 0, 12)));
   (68719476480, (12066, ("K"%string, 2, 0, 16)));
   (68719476734, (12070, ("K"%string, 2, 0, 16)));
   (68719476735, (12071, ("K"%string, 1, 0, 12)));
   (68719476734, (12072, ("W m-2 sr-1"%string, 6, 0, 31)));
   (1, (12073, ("K"%string, 1, 0, 12)));
   (1022, (12073, ("K"%string, 2, 0, 16)));
   (68719476735, (12075, ("W m-3 sr-1"%string, -3, 0, 16)));
   (68719476735, (12076, ("W m-2 sr-1"%string, 3, 0, 16)));
   (68719476734, (12080, ("K"%string, 2, -10000, 16)));
   (68719476734, (12081, ("K"%string, 2, -10000, 16)));
   (68719476734, (12082, ("K"%string, 2, 0, 12)));
   (34359738368, (12083, ("K"%string, 2, -10000, 16)));
   (68719476734, (12101, ("K"%string, 2, 0, 16)));
   (68719476734, (12102, ("K"%string, 2, 0, 16)));
   (68719476734, (12103, ("K"%string, 2, 0, 16)));
   (68719476734, (12104, ("K"%string, 2, 0, 16)));
   (68719476734, (12105, ("K"%string, 2, 0, 16)));
   (68719476734, (12106, ("K"%string, 2, 0, 16)));
   (68719476734, (12107, ("K"%string, 2, 0, 16)));
   (68719476734, (12111, ("K"%string, 2, 0, 16)));
   (68719476734, (12112, ("K"%string, 2, 0, 16)));
   (68719476734, (12113, ("K"%string, 2, 0, 16)));
   (68719476734, (12114, ("K"%string, 2, 0, 16)));
   (68719476734, (12115, ("K"%string, 2, 0, 16)));
   (68719476734, (12116, ("K"%string, 2, 0, 16)));
   (68719476734, (12117, ("K"%string, 2, 0, 16)));
   (68719476734, (12118, ("K"%string, 2, 0, 16)));
   (68719476734, (12119, ("K"%string, 2, 0, 16)));
   (68719476480, (12120, ("K"%string, 2, 0, 16)));
   (68719476734, (12121, ("K"%string, 2, 0, 16)));
   (68719476734, (12122, ("K"%string, 2, 0, 16)));
   (68718428160, (12128, ("K"%string, 2, 0, 16)));
   (68718428160, (12129, ("K"%string, 2, 0, 16)));
   (68719476735, (12130, ("K"%string, 2, 0, 16)));
   (68719476480, (12131, ("K"%string, 2, 0, 16)));
   (68719476480, (12132, ("K"%string, 2, 0, 16)));
   (68719476734, (12151, ("K"%string, 2, 0, 12)));
   (68719476734, (12152, ("K"%string, 2, 0, 16)));
   (68719476734, (12153, ("K"%string, 2, 0, 16)));
   (68719476224, (12158, ("K"%string, 2, 0, 12)));
   (68719476224, (12159, ("K"%string, 2, 0, 12)));
   (68719476734, (12161, ("K"%string, 2, 0, 16)));
   (68719476734, (12162, ("K"%string, 2, 0, 16)));
   (68719476735, (12163, ("K"%string, 2, 0, 16)));
   (68719476735, (12164, ("K"%string, 2, 0, 16)));
   (68719476734, (12165, ("K"%string, 0, 0, 23)));
   (68719476734, (12166, ("K"%string, 1, -4000, 13)));
   (68719476734, (12167, ("K"%string, 1, 0, 9)));
   (68719476734, (12168, ("K"%string, 1, 0, 9)));
   (34359738368, (12169, ("K"%string, 3, -100000, 18)));
   (68719476735, (12171, ("K"%string, 2, 0, 16)));
   (68719476734, (12180, ("K"%string, 2, 0, 16)));
   (68719476734, (12181, ("K"%string, 2, 0, 16)));
   (68719476734, (12182, ("K"%string, 2, 0, 16)));
   (68719476734, (12183, ("K"%string, 2, 0, 16)));
   (68719476734, (12184, ("K"%string, 2, 0, 16)));
   (68719476734, (12185, ("K"%string, 2, 0, 16)));
   (68719476734, (12186, ("K"%string, 2, 0, 16)));
   (68719476734, (12187, ("K"%string, 2, 0, 16)));
   (68719476734, (12188, ("K"%string, 2, 0, 16)));
   (68719476734, (12189, ("K"%string, 2, 0, 16)));
   (34359738368, (12190, ("K2"%string, 3, -15000, 15)));
   (618475290624, (12193, ("K"%string, 1, 0, 12)));
   (618475290624, (12194, ("W m-2 sr-1 m"%string, 6, 0, 31)));
   (618475290624, (12195, ("W m-2 sr-1 m"%string, 10, 0, 31)));
   (618475290624, (12196, ("W m-2 sr-1"%string, 3, 0, 16)));
   (618475290624, (12197, ("K"%string, 1, 0, 12)));
   (618475290624, (12198, ("K"%string, 1, 0, 12)));
   (618475290624, (12199, ("K"%string, 1, 0, 12)));
   (618475290624, (12200, ("K"%string, 1, 0, 12)));
   (68719476736, (12201, ("K"%string, 3, -271300, 20)));
   (68719476736, (12211, ("K"%string, 2, 0, 16)));
   (68719476736, (12212, ("K"%string, 2, 0, 16)));
   (68719476736, (12213, ("K"%string, 2, 0, 16)));
   (68719476736, (12214, ("K"%string, 2, 0, 16)));
   (68719476735, (13001, ("kg/kg"%string, 5, 0, 14)));
   (68719476735, (13002, ("kg/kg"%string, 5, 0, 14)));
   (68719476735, (13003, ("%"%string, 0, 0, 7)));
   (68719476735, (13004, ("Pa"%string, -1, 0, 10)));
   (68719476735, (13005, ("kg m-3"%string, 3, 0, 7)));
   (68719476735, (13006, ("m"%string, -1, -40, 16)));
   (68719476734, (13007, ("%"%string, 0, 0, 7)));
   (68719476734, (13008, ("%"%string, 0, 0, 7)));
   (68719476734, (13009, ("%"%string, 1, -1000, 12)));
   (68719476735, (13011, ("kg m-2"%string, 1, -1, 14)));
   (68719476735, (13012, ("m"%string, 2, -2, 12)));
   (68719476735, (13013, ("m"%string, 2, -2, 16)));
   (68719476735, (13014, ("kg m-2 s-1"%string, 4, 0, 12)));
   (68719476735, (13015, ("m/s"%string, 7, 0, 12)));
   (68719476735, (13016, ("kg m-2"%string, 0, 0, 7)));
   (68719476735, (13019, ("kg m-2"%string, 1, -1, 14)));
   (68719476735, (13020, ("kg m-2"%string, 1, -1, 14)));
   (68719476735, (13021, ("kg m-2"%string, 1, -1, 14)));
   (68719476735, (13022, ("kg m-2"%string, 1, -1, 14)));
   (68719476735, (13023, ("kg m-2"%string, 1, -1, 14)));
   (68719476735, (13031, ("kg m-2"%string, 0, 0, 7)));
   (68719476735, (13032, ("kg m-2"%string, 1, 0, 8)));
   (68719476735, (13033, ("kg m-2"%string, 1, 0, 10)));
   (536870911, (13038, ("CODE TABLE"%string, 0, 0, 2)));
   (68182605824, (13038, ("Code table"%string, 0, 0, 2)));
   (536870911, (13039, ("CODE TABLE"%string, 0, 0, 3)));
   (68182605824, (13039, ("Code table"%string, 0, 0, 3)));
   (536870910, (13040, ("CODE TABLE"%string, 0, 0, 4)));
   (68182605824, (13040, ("Code table"%string, 0, 0, 4)));
   (536870911, (13041, ("CODE TABLE"%string, 0, 0, 4)));
   (68182605824, (13041, ("Code table"%string, 0, 0, 4)));
   (68719476735, (13042, ("K"%string, 0, -20, 6)));
   (68719476735, (13043, ("K"%string, 0, -20, 6)));
   (68719476734, (13044, ("K"%string, 0, -30, 8)));
   (68719476734, (13045, ("K"%string, 0, -30, 8)));
   (68719476734, (13046, ("K"%string, 0, -30, 8)));
   (68719476734, (13047, ("K"%string, 0, -60, 6)));
   (68719476734, (13048, ("%"%string, 1, 0, 10)));
   (536870911, (13051, ("CODE TABLE"%string, 0, 0, 4)));
   (68182605824, (13051, ("Code table"%string, 0, 0, 4)));
   (68719476735, (13052, ("kg m-2"%string, 1, -1, 14)));
   (68719476735, (13055, ("kg m-2 s-1"%string, 4, 0, 8)));
   (536870910, (13056, ("CODE TABLE"%string, 0, 0, 4)));
   (68182605824, (13056, ("Code table"%string, 0, 0, 4)));
   (536870910, (13057, ("CODE TABLE"%string, 0, 0, 4)));
   (68182605824, (13057, ("Code table"%string, 0, 0, 4)));
   (68719476735, (13058, ("m"%string, 4, 0, 7)));
   (68719476735, (13059, ("Numeric"%string, 0, 0, 7)));
   (68719476734, (13060, ("kg m-2"%string, 1, -1, 17)));
   (68719476734, (13071, ("m"%string, 2, 0, 14)));
   (68719476734, (13072, ("m"%string, 2, 0, 14)));
   (68719476734, (13073, ("m"%string, 2, 0, 14)));
   (68719476480, (13074, ("m"%string, 2, 0, 18)));
   (68719476734, (13080, ("pH unit"%string, 1, 0, 10)));
   (68719476734, (13081, ("S/m"%string, 3, 0, 14)));
   (68719476734, (13082, ("K"%string, 1, 0, 12)));
   (68719476734, (13083, ("kg m-3"%string, 6, 0, 15)));
   (68719476734, (13084, ("lm"%string, 0, 0, 14)));
   (68719476734, (13085, ("V"%string, 3, 0, 14)));
   (68719476734, (13090, ("kg m-2"%string, 1, 0, 10)));
   (68719476734, (13091, ("kg m-2"%string, 2, 0, 8)));
   (68719476734, (13093, ("Numeric"%string, 0, 0, 8)));
   (34359738368, (13094, ("Numeric"%string, 3, -2000, 14)));
   (68719476734, (13095, ("kg m-2"%string, 4, 0, 19)));
   (68719476734, (13096, ("kg m-2"%string, 2, 0, 14)));
   (68719476734, (13097, ("kg m-2"%string, 2, 0, 14)));
   (68719476734, (13098, ("kg m-2"%string, 8, 0, 30)));
   (536866816, (13099, ("log (m-2)"%string, 1, 0, 7)));
   (68182605824, (13099, ("log(m-2)"%string, 1, 0, 7)));
   (536866816, (13100, ("log (m2 m-2)"%string, 1, -70, 7)));
   (68182605824, (13100, ("log(m2 m-2)"%string, 1, -70, 7)));
   (536866816, (13101, ("log (m3 m-2)"%string, 1, -140, 7)));
   (68182605824, (13101, ("log(m3 m-2)"%string, 1, -140, 7)));
   (68711088128, (13109, ("kg m-2"%string, 3, 0, 10)));
   (68719476480, (13110, ("%"%string, 0, 0, 7)));
   (68719476480, (13111, ("g/kg"%string, 0, 0, 10)));
   (68719476480, (13112, ("s"%string, 0, 0, 17)));
   (68719476480, (13114, ("kg m-2 h-1"%string, 1, 0, 11)));
   (68719476480, (13115, ("m"%string, 2, 0, 19)));
   (68718428160, (13116, ("m"%string, 4, 0, 10)));
   (68719476480, (13117, ("kg m-3"%string, 0, 0, 10)));
   (68719472640, (13118, ("m"%string, 3, -2, 14)));
   (3584, (13118, ("m"%string, 3, 0, 14)));
   (68719476480, (13155, ("kg m-2 s-1"%string, 5, -1, 16)));
   (68719345664, (13160, ("kg m-2"%string, 2, -350, 10)));
   (68702699520, (13162, ("kg m-2"%string, 2, 0, 8)));
   (68685922304, (13163, ("kg m-2"%string, 0, 0, 16)));
   (68685922304, (13164, ("m"%string, 3, -131072, 18)));
   (34359738368, (13165, ("J/kg"%string, 0, 0, 14)));
   (34359738368, (13166, ("K"%string, 1, 0, 10)));
   (34359738368, (13167, ("K"%string, 1, -1000, 11)));
   (34359738368, (13168, ("K"%string, 1, -100, 8)));
   (34359738368, (13169, ("K/K"%string, 1, -100, 8)));
   (34359738368, (13170, ("K"%string, 1, -1000, 11)));
   (34359738368, (13171, ("J/kg"%string, 0, -1000, 10)));
   (618475290624, (13192, ("%"%string, 0, 0, 8)));
   (618475290624, (13193, ("%"%string, 0, 0, 8)));
   (618475290624, (13194, ("kg m-2"%string, 2, 0, 11)));
   (618475290624, (13195, ("kg m-2 h-1"%string, 0, 0, 5)));
   (618475290624, (13196, ("kg m-2"%string, 0, 0, 7)));
   (618475290624, (13197, ("kg m-2"%string, 1, 0, 10)));
   (618475290624, (13198, ("CODE TABLE"%string, 0, 0, 3)));
   (618475290624, (13199, ("kg/kg"%string, 5, 0, 14)));
   (618475290624, (13201, ("kg/kg"%string, 7, 0, 14)));
   (618475290624, (13202, ("CODE TABLE"%string, 0, 0, 8)));
   (618475290624, (13203, ("kg m-2 h-1"%string, 2, 0, 12)));
   (618475290624, (13204, ("kg m-2 h-1"%string, 2, 0, 12)));
   (618475290624, (13205, ("kg m-2"%string, 4, 0, 14)));
   (618475290624, (13206, ("kg m-2"%string, 6, 0, 14)));
   (618475290624, (13207, ("kg m-2"%string, 6, 0, 14)));
   (618475290624, (13208, ("kg m-2 s-1"%string, 5, 0, 17)));
   (618475290624, (13209, ("Numeric"%string, 0, -256, 9)));
   (618475290624, (13210, ("kg m-2"%string, 4, 0, 14)));
   (618475290624, (13211, ("kg m-2"%string, 2, 0, 11)));
   (618475290624, (13212, ("kg m-2"%string, 4, 0, 14)));
   (68719476736, (13221, ("m3 m-3"%string, 5, 0, 17)));
   (68719476736, (13222, ("m3 m-3"%string, 5, 0, 17)));
   (68719476736, (13223, ("m3 m-3"%string, 5, 0, 17)));
   (68719476736, (13224, ("m3 m-3"%string, 5, 0, 17)));
   (618475290624, (13230, ("kg m-2"%string, 1, -1, 14)));
   (618475290624, (13231, ("kg m-2"%string, 1, -1, 14)));
   (68719476736, (13233, ("m"%string, 4, 0, 18)));
   (68719476736, (13234, ("m"%string, 4, 0, 14)));
   (618475290624, (13240, ("kg m-3"%string, 3, 0, 10)));
   (618475290624, (13241, ("J/kg"%string, 1, 0, 17)));
   (68719476480, (14001, ("J m-2"%string, -3, -65536, 17)));
   (255, (14001, ("J m-2"%string, -3, -2048, 12)));
   (68719476480, (14002, ("J m-2"%string, -3, -65536, 17)));
   (255, (14002, ("J m-2"%string, -3, -2048, 12)));
   (68719476480, (14003, ("J m-2"%string, -3, -65536, 17)));
   (255, (14003, ("J m-2"%string, -3, -2048, 12)));
   (68719476480, (14004, ("J m-2"%string, -3, -65536, 17)));
   (255, (14004, ("J m-2"%string, -3, -2048, 12)));
   (68719476480, (14011, ("J m-2"%string, -3, -65536, 17)));
   (255, (14011, ("J m-2"%string, -3, -2048, 12)));
   (68719476480, (14012, ("J m-2"%string, -3, -65536, 17)));
   (255, (14012, ("J m-2"%string, -3, -2048, 12)));
   (68719476480, (14013, ("J m-2"%string, -3, -65536, 17)));
   (255, (14013, ("J m-2"%string, -3, -2048, 12)));
   (68719476480, (14014, ("J m-2"%string, -3, -65536, 17)));
   (255, (14014, ("J m-2"%string, -3, -2048, 12)));
   (68719476735, (14015, ("J m-2"%string, -4, -16384, 15)));
   (68719476735, (14016, ("J m-2"%string, -4, -16384, 15)));
   (1, (14017, ("J m-2"%string, -3, -2048, 12)));
   (254, (14017, ("W m-2"%string, -3, -2048, 12)));
   (68719476480, (14017, ("W m-2"%string, 0, -512, 10)));
   (1, (14018, ("J m-2"%string, -3, -2048, 12)));
   (254, (14018, ("W m-2"%string, -3, -2048, 12)));
   (68719476480, (14018, ("W m-2"%string, 0, -2048, 12)));
   (68719476735, (14019, ("%"%string, 0, 0, 7)));
   (68719476735, (14020, ("J m-2"%string, -4, 0, 15)));
   (68719476735, (14021, ("J m-2"%string, -4, 0, 15)));
   (68719476735, (14022, ("J m-2"%string, -4, 0, 15)));
   (68719476735, (14023, ("J m-2"%string, -4, 0, 15)));
   (68719476735, (14024, ("J m-2"%string, -4, 0, 15)));
   (68719476735, (14025, ("J m-2"%string, -4, 0, 15)));
   (68719476735, (14026, ("%"%string, 0, 0, 7)));
   (68719476735, (14027, ("%"%string, 0, 0, 7)));
   (254, (14028, ("J m-2"%string, -2, 0, 16)));
   (68719476480, (14028, ("J m-2"%string, -2, 0, 20)));
   (254, (14029, ("J m-2"%string, -2, 0, 16)));
   (68719476480, (14029, ("J m-2"%string, -2, 0, 20)));
   (254, (14030, ("J m-2"%string, -2, 0, 16)));
   (68719476480, (14030, ("J m-2"%string, -2, 0, 20)));
   (68719476735, (14031, ("min"%string, 0, 0, 11)));
   (68719476735, (14032, ("h"%string, 0, 0, 10)));
   (68719476735, (14033, ("%"%string, 0, 0, 9)));
   (68719476735, (14034, ("min"%string, 0, 0, 11)));
   (68719476480, (14035, ("W m-2"%string, 1, 0, 14)));
   (68719476735, (14042, ("%"%string, 0, 0, 7)));
   (68719476224, (14043, ("W m-2 sr-1 um-1"%string, 4, 0, 23)));
   (68719476480, (14044, ("W m-2 sr-1 cm"%string, 7, -100000, 22)));
   (68719476735, (14045, ("W m-2 sr-1 cm"%string, 0, 0, 11)));
   (68719476734, (14046, ("W m-2 sr-1 m"%string, 0, -5000, 16)));
   (68719476734, (14047, ("W m-2 sr-1 m"%string, 0, 0, 31)));
   (68719476734, (14048, ("W m-2 sr-1 m"%string, 0, 0, 31)));
   (64424509440, (14049, ("W m-2 sr-1 cm"%string, 7, 0, 22)));
   (68719476734, (14050, ("%"%string, 1, 0, 10)));
   (68719476734, (14051, ("J m-2"%string, -3, 0, 14)));
   (68719474688, (14052, ("J m-2"%string, -2, -1048574, 20)));
   (1792, (14052, ("J m-2"%string, -2, 0, 20)));
   (68719474688, (14053, ("J m-2"%string, -2, -1048574, 21)));
   (1792, (14053, ("J m-2"%string, -2, 0, 21)));
   (68719476480, (14054, ("J m-2"%string, -3, 0, 16)));
   (68719476734, (14055, ("Numeric"%string, 0, -32768, 16)));
   (68182605824, (14056, ("Cd m-2"%string, 0, 0, 18)));
   (536870656, (14056, ("cd m-2"%string, 0, 0, 18)));
   (68719472640, (14057, ("J m-2"%string, -2, -1048574, 21)));
   (3584, (14057, ("J m-2"%string, -1, -1000, 11)));
   (51539607552, (14058, ("dB"%string, 2, -5000, 13)));
   (1022, (14061, ("W m-2"%string, 0, -512, 10)));
   (1022, (14062, ("W m-2"%string, 0, -2048, 12)));
   (7936, (14071, ("W m-2 nm-1"%string, 6, -1048576, 21)));
   (68719476480, (14072, ("J m-2"%string, 0, -4000000, 23)));
   (7936, (14073, ("J m-2"%string, -3, -32, 6)));
   (68719476736, (14200, ("W m-2 s"%string, -2, 0, 24)));
   (68719476735, (15001, ("DU"%string, 0, 0, 10)));
   (68719476735, (15002, ("Numeric"%string, 2, 0, 10)));
   (68719476734, (15003, ("Pa"%string, 4, 0, 9)));
   (1, (15003, ("Pa"%string, 5, 0, 12)));
   (68719476734, (15004, ("Numeric"%string, 3, 0, 11)));
   (1, (15004, ("Numeric"%string, 3, 0, 14)));
   (68719476735, (15005, ("DU"%string, 0, 0, 10)));
   (402653184, (15006, ("log (m-3)"%string, 5, 1800000, 20)));
   (68182605824, (15006, ("log(m-3)"%string, 5, 1800000, 20)));
   (34359738368, (15007, ("DU"%string, 2, 0, 16)));
   (7936, (15007, ("U"%string, 2, 0, 15)));
   (68719476734, (15008, ("Numeric"%string, 0, 0, 10)));
   (549755813888, (15008, ("Numeric"%string, 0, 0, 24)));
   (402653184, (15009, ("log (m-3)"%string, 5, 1200000, 20)));
   (68182605824, (15009, ("log(m-3)"%string, 5, 1200000, 20)));
   (7936, (15009, ("m-2"%string, 0, 0, 10)));
   (7936, (15010, ("Pa"%string, 0, 0, 10)));
   (68719476735, (15011, ("log (m-2)"%string, 3, 14000, 13)));
   (68719476734, (15012, ("m-2"%string, -16, 0, 6)));
   (68719476735, (15015, ("Numeric"%string, 0, 0, 31)));
   (68719476735, (15020, ("kg m-2"%string, 8, 0, 21)));
   (549755813888, (15021, ("kg m-2"%string, 0, 0, 24)));
   (68719476734, (15021, ("kg m-2"%string, 11, 0, 31)));
   (66571993088, (15022, ("kg m-2"%string, 1, -100000000, 31)));
   (7936, (15022, ("m-3"%string, 0, 0, 10)));
   (7936, (15023, ("kg m-3"%string, 0, 0, 10)));
   (68719476734, (15024, ("Numeric"%string, 4, 0, 24)));
   (536870910, (15025, ("CODE TABLE"%string, 0, 0, 4)));
   (68182605824, (15025, ("Code table"%string, 0, 0, 4)));
   (68719476734, (15026, ("mol/mol"%string, 9, 0, 9)));
   (68719476734, (15027, ("kg m-3"%string, 9, 0, 10)));
   (7936, (15028, ("/s"%string, 0, 0, 10)));
   (67106766848, (15028, ("0/00"%string, 5, 0, 16)));
   (1610612736, (15028, ("‰"%string, 5, 0, 16)));
   (68719476480, (15029, ("/m"%string, 9, 0, 30)));
   (68719476734, (15030, ("Numeric"%string, 2, -1000, 12)));
   (68719476734, (15031, ("m"%string, 4, 10000, 15)));
   (68719476734, (15032, ("m"%string, 4, 0, 10)));
   (68719476734, (15033, ("m"%string, 5, -10000, 15)));
   (68719476734, (15034, ("m"%string, 5, 0, 14)));
   (68719476734, (15035, ("m"%string, 4, 0, 14)));
   (68719476734, (15036, ("N units"%string, 3, 0, 19)));
   (68719476734, (15037, ("rad"%string, 8, -100000, 23)));
   (67645734912, (15038, ("m"%string, 4, 0, 20)));
   (67645734912, (15039, ("m"%string, 4, 0, 14)));
   (7936, (15040, ("m"%string, 8, 0, 9)));
   (68719443968, (15041, ("Numeric"%string, 2, -1200, 14)));
   (68719476480, (15042, ("%"%string, 2, 0, 14)));
   (549755813888, (15042, ("Numeric"%string, 6, 0, 20)));
   (584115560192, (15043, ("Numeric"%string, 0, 0, 10)));
   (7936, (15044, ("Numeric"%string, 6, -5000000, 24)));
   (584115552256, (15044, ("Numeric"%string, 6, -5000000, 31)));
   (68719443968, (15045, ("DU"%string, 2, -2000, 15)));
   (68719443968, (15046, ("Numeric"%string, 2, -1000, 11)));
   (68719443968, (15049, ("Numeric"%string, 3, -2000, 14)));
   (68719476480, (15051, ("m"%string, 0, 0, 18)));
   (68719472640, (15052, ("log (m-3)"%string, 1, 60, 6)));
   (68719472640, (15053, ("log (m-3)"%string, 2, 600, 9)));
   (68719472640, (15054, ("log (m-3)"%string, 2, 550, 9)));
   (68719472640, (15055, ("Numeric"%string, 2, 0, 7)));
   (68719443968, (15062, ("Numeric"%string, 3, -1000, 14)));
   (12582912, (15063, ("m-1 Sr-1"%string, 8, 0, 20)));
   (68702699520, (15063, ("m-1 sr-1"%string, 8, 0, 20)));
   (12582912, (15064, ("m-1 Sr-1"%string, 8, 0, 20)));
   (68702699520, (15064, ("m-1 sr-1"%string, 8, 0, 20)));
   (12582912, (15065, ("m-1 Sr-1"%string, 8, 0, 20)));
   (68702699520, (15065, ("m-1 sr-1"%string, 8, 0, 20)));
   (12582912, (15066, ("m-1 Sr-1"%string, 8, 0, 20)));
   (68702699520, (15066, ("m-1 sr-1"%string, 8, 0, 20)));
   (532676608, (15067, ("/m"%string, 8, 0, 20)));
   (68182605824, (15067, ("m-1"%string, 8, 0, 20)));
   (532676608, (15068, ("/m"%string, 8, 0, 20)));
   (68182605824, (15068, ("m-1"%string, 8, 0, 20)));
   (12582912, (15069, ("Sr"%string, 2, 0, 14)));
   (68702699520, (15069, ("sr"%string, 2, 0, 14)));
   (12582912, (15070, ("Sr"%string, 2, 0, 14)));
   (68702699520, (15070, ("sr"%string, 2, 0, 14)));
   (68715282432, (15071, ("%"%string, 2, 0, 14)));
   (68715282432, (15072, ("%"%string, 2, 0, 14)));
   (68182605824, (15073, ("m-1 sr-1"%string, 8, -524288, 20)));
   (68182605824, (15074, ("m-1 sr-1"%string, 8, -524288, 20)));
   (68182605824, (15075, ("m"%string, 8, -524288, 20)));
   (68182605824, (15076, ("sr"%string, 1, -2048, 13)));
   (68182605824, (15077, ("sr"%string, 1, 0, 12)));
   (68182605824, (15078, ("%"%string, 2, -8192, 15)));
   (67645734912, (15079, ("m"%string, 4, 0, 15)));
   (67645734912, (15080, ("m"%string, 4, 0, 12)));
   (67645734912, (15081, ("m"%string, 4, 0, 18)));
   (67645734912, (15082, ("kg m-2"%string, 1, 0, 16)));
   (64424509440, (15083, ("m"%string, 5, -8192, 14)));
   (3221225472, (15083, ("m"%string, 5, 0, 14)));
   (67645734912, (15084, ("m"%string, 4, 0, 14)));
   (67645734912, (15085, ("m"%string, 4, 0, 14)));
   (67645734912, (15086, ("Numeric"%string, 3, 0, 16)));
   (67645734912, (15087, ("Numeric"%string, 3, 0, 16)));
   (67645734912, (15088, ("Numeric"%string, 3, 0, 16)));
   (67645734912, (15089, ("m"%string, 4, 0, 15)));
   (67645734912, (15090, ("m"%string, 4, 0, 20)));
   (618475290624, (15202, ("m-2"%string, 3, 13000, 12)));
   (68719476736, (15231, ("m"%string, 4, 0, 15)));
   (536870911, (19001, ("CODE TABLE"%string, 0, 0, 6)));
   (68182605824, (19001, ("Code table"%string, 0, 0, 6)));
   (68719476735, (19002, ("m"%string, -2, 0, 12)));
   (68719476735, (19003, ("m/s"%string, 0, 0, 8)));
   (68719476735, (19004, ("m"%string, -2, 0, 12)));
   (536870911, (19005, ("deg"%string, 0, 0, 9)));
   (68182605824, (19005, ("degree true"%string, 0, 0, 9)));
   (68719476735, (19006, ("m/s"%string, 2, 0, 14)));
   (68719476735, (19007, ("m"%string, -3, 0, 12)));
   (536870911, (19008, ("CODE TABLE"%string, 0, 0, 3)));
   (68182605824, (19008, ("Code table"%string, 0, 0, 3)));
   (68719476735, (19009, ("m"%string, -3, 0, 12)));
   (536870910, (19010, ("CODE TABLE"%string, 0, 0, 4)));
   (68182605824, (19010, ("Code table"%string, 0, 0, 4)));
   (536870910, (19100, ("CODE TABLE"%string, 0, 0, 4)));
   (68182605824, (19100, ("Code table"%string, 0, 0, 4)));
   (536870910, (19101, ("CODE TABLE"%string, 0, 0, 4)));
   (68182605824, (19101, ("Code table"%string, 0, 0, 4)));
   (536870910, (19102, ("CODE TABLE"%string, 0, 0, 3)));
   (68182605824, (19102, ("Code table"%string, 0, 0, 3)));
   (536870910, (19103, ("CODE TABLE"%string, 0, 0, 4)));
   (68182605824, (19103, ("Code table"%string, 0, 0, 4)));
   (536870910, (19104, ("CODE TABLE"%string, 0, 0, 4)));
   (68182605824, (19104, ("Code table"%string, 0, 0, 4)));
   (536870910, (19105, ("CODE TABLE"%string, 0, 0, 4)));
   (68182605824, (19105, ("Code table"%string, 0, 0, 4)));
   (68719476734, (19106, ("Numeric"%string, 0, 0, 7)));
   (536870910, (19107, ("CODE TABLE"%string, 0, 0, 4)));
   (68182605824, (19107, ("Code table"%string, 0, 0, 4)));
   (536870910, (19108, ("CODE TABLE"%string, 0, 0, 3)));
   (68182605824, (19108, ("Code table"%string, 0, 0, 3)));
   (536870910, (19109, ("CODE TABLE"%string, 0, 0, 4)));
   (68182605824, (19109, ("Code table"%string, 0, 0, 4)));
   (536870910, (19110, ("CODE TABLE"%string, 0, 0, 4)));
   (68182605824, (19110, ("Code table"%string, 0, 0, 4)));
   (68719476734, (19111, ("Numeric"%string, 1, 0, 7)));
   (68719476734, (19112, ("Numeric"%string, 1, 0, 7)));
   (536870910, (19113, ("CODE TABLE"%string, 0, 0, 4)));
   (68182605824, (19113, ("Code table"%string, 0, 0, 4)));
   (68719476734, (19114, ("Numeric"%string, 1, 0, 7)));
   (68719476734, (19115, ("Numeric"%string, 1, -30, 6)));
   (68719476734, (19116, ("Numeric"%string, 1, 0, 7)));
   (536870910, (19117, ("CODE TABLE"%string, 0, 0, 3)));
   (68182605824, (19117, ("Code table"%string, 0, 0, 3)));
   (68719476734, (19118, ("Numeric"%string, 1, 0, 7)));
   (536870910, (19119, ("CODE TABLE"%string, 0, 0, 3)));
   (68182605824, (19119, ("Code table"%string, 0, 0, 3)));
   (68719476734, (19150, ("CCITT IA5"%string, 0, 0, 32)));
   (68719476735, (20001, ("m"%string, -1, 0, 13)));
   (68719476735, (20002, ("m"%string, -1, 0, 7)));
   (536870911, (20003, ("CODE TABLE"%string, 0, 0, 9)));
   (68182605824, (20003, ("Code table"%string, 0, 0, 9)));
   (536870911, (20004, ("CODE TABLE"%string, 0, 0, 5)));
   (68182605824, (20004, ("Code table"%string, 0, 0, 5)));
   (536870911, (20005, ("CODE TABLE"%string, 0, 0, 5)));
   (68182605824, (20005, ("Code table"%string, 0, 0, 5)));
   (536870656, (20006, ("CODE TABLE"%string, 0, 0, 3)));
   (68182605824, (20006, ("Code table"%string, 0, 0, 3)));
   (536870910, (20008, ("CODE TABLE"%string, 0, 0, 5)));
   (68182605824, (20008, ("Code table"%string, 0, 0, 5)));
   (536870911, (20009, ("CODE TABLE"%string, 0, 0, 4)));
   (68182605824, (20009, ("Code table"%string, 0, 0, 4)));
   (68719476735, (20010, ("%"%string, 0, 0, 7)));
   (536870911, (20011, ("CODE TABLE"%string, 0, 0, 4)));
   (68182605824, (20011, ("Code table"%string, 0, 0, 4)));
   (536870911, (20012, ("CODE TABLE"%string, 0, 0, 6)));
   (68182605824, (20012, ("Code table"%string, 0, 0, 6)));
   (68719476735, (20013, ("m"%string, -1, -40, 11)));
   (68719476735, (20014, ("m"%string, -1, -40, 11)));
   (68719476735, (20015, ("Pa"%string, -1, 0, 14)));
   (68719476735, (20016, ("Pa"%string, -1, 0, 14)));
   (536870911, (20017, ("CODE TABLE"%string, 0, 0, 4)));
   (68182605824, (20017, ("Code table"%string, 0, 0, 4)));
   (536870911, (20018, ("CODE TABLE"%string, 0, 0, 2)));
   (68182605824, (20018, ("Code table"%string, 0, 0, 2)));
   (68719476735, (20019, ("CCITT IA5"%string, 0, 0, 72)));
   (68719476735, (20020, ("CCITT IA5"%string, 0, 0, 32)));
   (536870910, (20021, ("FLAG TABLE"%string, 0, 0, 30)));
   (68182605824, (20021, ("Flag table"%string, 0, 0, 30)));
   (536870910, (20022, ("CODE TABLE"%string, 0, 0, 4)));
   (68182605824, (20022, ("Code table"%string, 0, 0, 4)));
   (536870910, (20023, ("FLAG TABLE"%string, 0, 0, 18)));
   (68182605824, (20023, ("Flag table"%string, 0, 0, 18)));
   (536870910, (20024, ("CODE TABLE"%string, 0, 0, 3)));
   (68182605824, (20024, ("Code table"%string, 0, 0, 3)));
   (536870910, (20025, ("FLAG TABLE"%string, 0, 0, 21)));
   (68182605824, (20025, ("Flag table"%string, 0, 0, 21)));
   (536870910, (20026, ("CODE TABLE"%string, 0, 0, 4)));
   (68182605824, (20026, ("Code table"%string, 0, 0, 4)));
   (536870910, (20027, ("FLAG TABLE"%string, 0, 0, 9)));
   (68182605824, (20027, ("Flag table"%string, 0, 0, 9)));
   (536870910, (20028, ("CODE TABLE"%string, 0, 0, 3)));
   (68182605824, (20028, ("Code table"%string, 0, 0, 3)));
   (536870910, (20029, ("CODE TABLE"%string, 0, 0, 2)));
   (68182605824, (20029, ("Code table"%string, 0, 0, 2)));
   (68719476735, (20031, ("m"%string, 2, 0, 7)));
   (536870911, (20032, ("CODE TABLE"%string, 0, 0, 3)));
   (68182605824, (20032, ("Code table"%string, 0, 0, 3)));
   (536870911, (20033, ("FLAG TABLE"%string, 0, 0, 4)));
   (68182605824, (20033, ("Flag table"%string, 0, 0, 4)));
   (536870911, (20034, ("CODE TABLE"%string, 0, 0, 5)));
   (68182605824, (20034, ("Code table"%string, 0, 0, 5)));
   (536870911, (20035, ("CODE TABLE"%string, 0, 0, 4)));
   (68182605824, (20035, ("Code table"%string, 0, 0, 4)));
   (536870911, (20036, ("CODE TABLE"%string, 0, 0, 5)));
   (68182605824, (20036, ("Code table"%string, 0, 0, 5)));
   (536870911, (20037, ("CODE TABLE"%string, 0, 0, 5)));
   (68182605824, (20037, ("Code table"%string, 0, 0, 5)));
   (536870911, (20038, ("deg"%string, 0, 0, 12)));
   (68182605824, (20038, ("degree true"%string, 0, 0, 12)));
   (68719476735, (20039, ("m"%string, -1, 0, 13)));
   (536870910, (20040, ("CODE TABLE"%string, 0, 0, 4)));
   (68182605824, (20040, ("Code table"%string, 0, 0, 4)));
   (536870911, (20041, ("CODE TABLE"%string, 0, 0, 4)));
   (68182605824, (20041, ("Code table"%string, 0, 0, 4)));
   (536870910, (20042, ("CODE TABLE"%string, 0, 0, 2)));
   (68182605824, (20042, ("Code table"%string, 0, 0, 2)));
   (68719476734, (20043, ("kg m-3"%string, 4, 0, 7)));
   (68719476734, (20044, ("kg m-3"%string, 4, 0, 7)));
   (536870910, (20045, ("CODE TABLE"%string, 0, 0, 2)));
   (68182605824, (20045, ("Code table"%string, 0, 0, 2)));
   (536870910, (20048, ("CODE TABLE"%string, 0, 0, 4)));
   (68182605824, (20048, ("Code table"%string, 0, 0, 4)));
   (536870910, (20050, ("CODE TABLE"%string, 0, 0, 8)));
   (68182605824, (20050, ("Code table"%string, 0, 0, 8)));
   (68719476735, (20051, ("%"%string, 0, 0, 7)));
   (68719476735, (20052, ("%"%string, 0, 0, 7)));
   (68719476735, (20053, ("%"%string, 0, 0, 7)));
   (536870910, (20054, ("deg"%string, 0, 0, 9)));
   (68182605824, (20054, ("degree true"%string, 0, 0, 9)));
   (536870910, (20055, ("CODE TABLE"%string, 0, 0, 4)));
   (68182605824, (20055, ("Code table"%string, 0, 0, 4)));
   (536870910, (20056, ("CODE TABLE"%string, 0, 0, 3)));
   (68182605824, (20056, ("Code table"%string, 0, 0, 3)));
   (68719476480, (20058, ("m"%string, -1, 0, 13)));
   (68719476734, (20059, ("m"%string, -1, 0, 9)));
   (68719476734, (20060, ("m"%string, -1, 0, 10)));
   (68719476735, (20061, ("m"%string, 0, 0, 12)));
   (536870911, (20062, ("CODE TABLE"%string, 0, 0, 5)));
   (68182605824, (20062, ("Code table"%string, 0, 0, 5)));
   (536870911, (20063, ("CODE TABLE"%string, 0, 0, 10)));
   (68182605824, (20063, ("Code table"%string, 0, 0, 10)));
   (68719476734, (20065, ("%"%string, 0, 0, 7)));
   (68719476734, (20066, ("m"%string, 3, 0, 8)));
   (68719476734, (20067, ("m"%string, 3, 0, 9)));
   (68719476734, (20070, ("Numeric"%string, 0, 0, 7)));
   (536870910, (20071, ("CODE TABLE"%string, 0, 0, 4)));
   (68182605824, (20071, ("Code table"%string, 0, 0, 4)));
   (34359738368, (20079, ("Code table"%string, 0, 0, 2)));
   (549755821824, (20079, ("FLAG TABLE"%string, 0, 0, 2)));
   (7936, (20080, ("CODE TABLE"%string, 0, 0, 3)));
   (68719476735, (20081, ("%"%string, 0, 0, 7)));
   (68719476735, (20082, ("%"%string, 0, 0, 7)));
   (68719476734, (20083, ("%"%string, 0, 0, 7)));
   (536870910, (20085, ("CODE TABLE"%string, 0, 0, 4)));
   (68182605824, (20085, ("Code table"%string, 0, 0, 4)));
   (536870910, (20086, ("CODE TABLE"%string, 0, 0, 4)));
   (68182605824, (20086, ("Code table"%string, 0, 0, 4)));
   (536870910, (20087, ("CODE TABLE"%string, 0, 0, 4)));
   (68182605824, (20087, ("Code table"%string, 0, 0, 4)));
   (68719476734, (20088, ("m"%string, 3, 0, 12)));
   (536870910, (20089, ("CODE TABLE"%string, 0, 0, 7)));
   (68182605824, (20089, ("Code table"%string, 0, 0, 7)));
   (536870911, (20090, ("CODE TABLE"%string, 0, 0, 4)));
   (68182605824, (20090, ("Code table"%string, 0, 0, 4)));
   (68719476734, (20091, ("ft"%string, -2, 0, 10)));
   (68719476734, (20092, ("ft"%string, -2, 0, 10)));
   (68719476480, (20093, ("m"%string, -1, 0, 8)));
   (68719476734, (20095, ("Numeric"%string, 3, 0, 10)));
   (68719476734, (20096, ("dB"%string, 2, -4096, 13)));
   (536870910, (20101, ("CODE TABLE"%string, 0, 0, 4)));
   (68182605824, (20101, ("Code table"%string, 0, 0, 4)));
   (536870910, (20102, ("CODE TABLE"%string, 0, 0, 4)));
   (68182605824, (20102, ("Code table"%string, 0, 0, 4)));
   (536870910, (20103, ("CODE TABLE"%string, 0, 0, 4)));
   (68182605824, (20103, ("Code table"%string, 0, 0, 4)));
   (536870910, (20104, ("CODE TABLE"%string, 0, 0, 4)));
   (68182605824, (20104, ("Code table"%string, 0, 0, 4)));
   (536870910, (20105, ("CODE TABLE"%string, 0, 0, 4)));
   (68182605824, (20105, ("Code table"%string, 0, 0, 4)));
   (536870910, (20106, ("CODE TABLE"%string, 0, 0, 4)));
   (68182605824, (20106, ("Code table"%string, 0, 0, 4)));
   (536870910, (20107, ("CODE TABLE"%string, 0, 0, 4)));
   (68182605824, (20107, ("Code table"%string, 0, 0, 4)));
   (536870910, (20108, ("CODE TABLE"%string, 0, 0, 4)));
   (68182605824, (20108, ("Code table"%string, 0, 0, 4)));
   (68719476480, (20111, ("m"%string, -1, 0, 17)));
   (68719476480, (20112, ("m"%string, -1, 0, 17)));
   (68719476480, (20113, ("m"%string, -1, 0, 17)));
   (68719476480, (20114, ("deg"%string, 2, -18000, 16)));
   (68719476480, (20115, ("deg"%string, 2, -18000, 16)));
   (68719476480, (20116, ("m"%string, 0, 0, 16)));
   (68719476480, (20117, ("A"%string, -1, -32000, 16)));
   (68719476480, (20118, ("m"%string, 0, 0, 19)));
   (536870656, (20119, ("CODE TABLE"%string, 0, 0, 2)));
   (68182605824, (20119, ("Code table"%string, 0, 0, 2)));
   (256, (20120, ("CODE TABLE"%string, 0, 0, 3)));
   (68719476480, (20121, ("V"%string, 3, 0, 16)));
   (68719476480, (20122, ("A"%string, 0, 0, 16)));
   (68719476480, (20123, ("V/m"%string, 3, 0, 16)));
   (536870656, (20124, ("CODE TABLE"%string, 0, 0, 2)));
   (68182605824, (20124, ("Code table"%string, 0, 0, 2)));
   (68719476480, (20126, ("/h"%string, 0, 0, 23)));
   (68719476480, (20127, ("m"%string, -3, 0, 8)));
   (536870656, (20128, ("deg"%string, 1, 0, 12)));
   (68182605824, (20128, ("degree true"%string, 1, 0, 12)));
   (68717379584, (20129, ("m-2"%string, 6, 0, 10)));
   (68719476480, (20130, ("Numeric"%string, 0, 0, 10)));
   (68719476480, (20131, ("m"%string, 5, 0, 6)));
   (68719476480, (20132, ("kg m-3"%string, 5, 0, 11)));
   (68719476480, (20133, ("m"%string, 5, 0, 6)));
   (68719476480, (20135, ("kg/m"%string, 1, 0, 10)));
   (536870400, (20136, ("CODE TABLE"%string, 0, 0, 9)));
   (68182605824, (20136, ("Code table"%string, 0, 0, 9)));
   (536845824, (20137, ("CODE TABLE"%string, 0, 0, 4)));
   (68182605824, (20137, ("Code table"%string, 0, 0, 4)));
   (535822336, (20138, ("CODE TABLE"%string, 0, 0, 4)));
   (68182605824, (20138, ("Code table"%string, 0, 0, 4)));
   (34359738368, (20139, ("Code table"%string, 0, 0, 4)));
   (34359738368, (20140, ("m2"%string, 0, 0, 30)));
   (34359738368, (20141, ("J"%string, 19, 0, 30)));
   (34359738368, (20142, ("%"%string, 0, 0, 7)));
   (34359738368, (20143, ("Code table"%string, 0, 0, 2)));
   (618475290624, (20192, ("CODE TABLE"%string, 0, 0, 14)));
   (618475290624, (20193, ("%"%string, 0, 0, 7)));
   (618475290624, (20194, ("%"%string, 0, 0, 7)));
   (618475290624, (20215, ("Pa"%string, -1, 0, 14)));
   (68719476736, (20249, ("Numeric"%string, 2, 0, 7)));
   (618475290624, (20250, ("CODE TABLE"%string, 0, 0, 5)));
   (618475290624, (20251, ("CODE TABLE"%string, 0, 0, 3)));
   (618475290624, (20252, ("CODE TABLE"%string, 0, 0, 3)));
   (618475290624, (20253, ("CODE TABLE"%string, 0, 0, 3)));
   (618475290624, (20254, ("%"%string, 0, 0, 7)));
   (68719476735, (21001, ("dB"%string, 0, -64, 7)));
   (68719476735, (21002, ("dB"%string, 0, -64, 7)));
   (68719476735, (21003, ("dB"%string, 1, -5, 7)));
   (68718952448, (21004, ("dB"%string, 2, -800, 11)));
   (68719476735, (21005, ("dB"%string, 0, -65, 6)));
   (68719476735, (21006, ("dB"%string, 0, -65, 6)));
   (64424509440, (21007, ("dB"%string, 2, -9000, 15)));
   (64424509440, (21008, ("dB"%string, 2, 0, 13)));
   (64424509440, (21009, ("m/s"%string, 2, -10000, 15)));
   (64424509440, (21010, ("m/s"%string, 2, -10000, 15)));
   (68719476735, (21011, ("m/s"%string, 0, -128, 8)));
   (68719476735, (21012, ("m/s"%string, 0, -128, 8)));
   (68719476735, (21013, ("m/s"%string, 0, -128, 8)));
   (68719476735, (21014, ("m/s"%string, 1, -4096, 13)));
   (68719476735, (21017, ("m/s"%string, 1, 0, 8)));
   (68719476480, (21018, ("m/s"%string, 1, 0, 10)));
   (68719476480, (21019, ("m/s"%string, 1, 0, 10)));
   (68719476735, (21021, ("m"%string, -3, 0, 4)));
   (68719476480, (21022, ("m"%string, 1, 0, 14)));
   (68719476480, (21023, ("m"%string, 0, 0, 14)));
   (68719476480, (21024, ("deg"%string, 1, 0, 12)));
   (68719476480, (21025, ("deg"%string, 1, 0, 8)));
   (51539607552, (21026, ("Code table"%string, 0, 0, 3)));
   (51539607552, (21027, ("Numeric"%string, 4, 0, 14)));
   (68718952448, (21028, ("deg"%string, 1, 0, 12)));
   (68718952448, (21029, ("Numeric"%string, 2, -100, 8)));
   (68719476735, (21030, ("dB"%string, 0, -32, 8)));
   (68719476735, (21031, ("kg m-2"%string, 0, 0, 7)));
   (68719476735, (21036, ("m/s"%string, 7, 0, 12)));
   (68719476735, (21041, ("m"%string, -2, 0, 8)));
   (68719476735, (21051, ("dB"%string, 0, -256, 8)));
   (68719476735, (21062, ("dB"%string, 2, -5000, 13)));
   (68719476735, (21063, ("%"%string, 1, 0, 10)));
   (68719476735, (21064, ("Numeric"%string, 0, 0, 8)));
   (68719476735, (21065, ("Numeric"%string, 0, -127, 8)));
   (536870911, (21066, ("FLAG TABLE"%string, 0, 0, 12)));
   (68182605824, (21066, ("Flag table"%string, 0, 0, 12)));
   (536870911, (21067, ("FLAG TABLE"%string, 0, 0, 13)));
   (68182605824, (21067, ("Flag table"%string, 0, 0, 13)));
   (536870911, (21068, ("FLAG TABLE"%string, 0, 0, 8)));
   (68182605824, (21068, ("Flag table"%string, 0, 0, 8)));
   (536870911, (21069, ("FLAG TABLE"%string, 0, 0, 10)));
   (68182605824, (21069, ("Flag table"%string, 0, 0, 10)));
   (536870911, (21070, ("FLAG TABLE"%string, 0, 0, 23)));
   (68182605824, (21070, ("Flag table"%string, 0, 0, 23)));
   (68719476735, (21071, ("Numeric"%string, 0, 0, 16)));
   (536870911, (21072, ("FLAG TABLE"%string, 0, 0, 4)));
   (68182605824, (21072, ("Flag table"%string, 0, 0, 4)));
   (536870911, (21073, ("FLAG TABLE"%string, 0, 0, 9)));
   (68182605824, (21073, ("Flag table"%string, 0, 0, 9)));
   (68719476735, (21075, ("Numeric"%string, 0, 0, 8)));
   (536870911, (21076, ("CODE TABLE"%string, 0, 0, 3)));
   (68182605824, (21076, ("Code table"%string, 0, 0, 3)));
   (68719476735, (21077, ("m"%string, 3, 0, 14)));
   (68719476735, (21078, ("m"%string, 3, 0, 9)));
   (68719476735, (21079, ("m"%string, 3, 2000, 10)));
   (68719476735, (21080, ("m"%string, 3, 0, 11)));
   (68719476735, (21081, ("m"%string, 3, 0, 10)));
   (68719476735, (21082, ("dB"%string, 3, -3000, 14)));
   (68719476734, (21083, ("Numeric"%string, 0, 0, 16)));
   (68719476734, (21084, ("Numeric"%string, 0, 0, 16)));
   (68719476735, (21085, ("Numeric"%string, 0, 0, 4)));
   (68719476734, (21086, ("Numeric"%string, 0, 0, 9)));
   (68719476734, (21087, ("Numeric"%string, 0, 0, 9)));
   (68719476734, (21088, ("dB"%string, 2, -5000, 13)));
   (68719476735, (21091, ("dB"%string, 0, -100, 8)));
   (68719476735, (21092, ("dB"%string, 0, -100, 8)));
   (68719476734, (21093, ("Numeric"%string, 3, 0, 16)));
   (68719476734, (21094, ("Numeric"%string, 3, 0, 16)));
   (68182605824, (21095, ("Numeric"%string, 6, 0, 20)));
   (68182605824, (21096, ("Numeric"%string, 6, 0, 20)));
   (68182605824, (21097, ("Numeric"%string, 6, 0, 20)));
   (68719476735, (21101, ("Numeric"%string, 0, 0, 3)));
   (68719476735, (21102, ("Numeric"%string, 0, 0, 3)));
   (68719476735, (21103, ("Numeric"%string, 0, 0, 5)));
   (68719476735, (21104, ("Numeric"%string, 3, -30000, 15)));
   (68719476735, (21105, ("dB"%string, 2, -10000, 14)));
   (68719476735, (21106, ("Numeric"%string, 3, 0, 14)));
   (68719476735, (21107, ("Numeric"%string, 8, 0, 16)));
   (536870911, (21109, ("FLAG TABLE"%string, 0, 0, 17)));
   (68182605824, (21109, ("Flag table"%string, 0, 0, 17)));
   (68719476735, (21110, ("Numeric"%string, 0, 0, 6)));
   (68719476735, (21111, ("Numeric"%string, 0, 0, 6)));
   (68719476735, (21112, ("Numeric"%string, 0, 0, 6)));
   (68719476735, (21113, ("Numeric"%string, 0, 0, 6)));
   (68719476735, (21114, ("dB"%string, 3, -140000, 18)));
   (536870911, (21115, ("FLAG TABLE"%string, 0, 0, 17)));
   (68182605824, (21115, ("Flag table"%string, 0, 0, 17)));
   (536870911, (21116, ("FLAG TABLE"%string, 0, 0, 17)));
   (68182605824, (21116, ("Flag table"%string, 0, 0, 17)));
   (68719476735, (21117, ("Numeric"%string, 2, 0, 16)));
   (68719476735, (21118, ("dB"%string, 2, -10000, 14)));
   (536870911, (21119, ("CODE TABLE"%string, 0, 0, 6)));
   (68182605824, (21119, ("Code table"%string, 0, 0, 6)));
   (68719476735, (21120, ("Numeric"%string, 3, 0, 10)));
   (68719476735, (21121, ("Numeric"%string, 0, 0, 8)));
   (68719476735, (21122, ("dB"%string, 2, -10000, 14)));
   (68719476735, (21123, ("dB"%string, 2, -30000, 15)));
   (68719476734, (21128, ("Numeric"%string, 0, 0, 8)));
   (68719476734, (21130, ("Numeric"%string, 6, 0, 28)));
   (68719476734, (21131, ("Numeric"%string, 6, 0, 28)));
   (68719476734, (21132, ("deg"%string, 3, 0, 19)));
   (68719476734, (21133, ("m"%string, 3, 0, 29)));
   (68719476734, (21134, ("rad/m"%string, 3, 0, 19)));
   (68719476734, (21135, ("Numeric"%string, 3, -524288, 20)));
   (68719476734, (21136, ("Numeric"%string, 3, -524288, 20)));
   (68719476734, (21137, ("dB"%string, 2, -32768, 16)));
   (68719476734, (21138, ("dB"%string, 2, -32768, 16)));
   (68719476734, (21139, ("dB"%string, 2, -2048, 12)));
   (68719476734, (21140, ("dB"%string, 2, -32768, 16)));
   (68719476734, (21141, ("dB"%string, 2, -32768, 16)));
   (68719476734, (21142, ("dB"%string, 2, -1024, 11)));
   (68719476734, (21143, ("dB"%string, 2, -1073741824, 31)));
   (536870910, (21144, ("FLAG TABLE"%string, 0, 0, 2)));
   (68182605824, (21144, ("Flag table"%string, 0, 0, 2)));
   (68719476734, (21145, ("dB"%string, 2, 0, 13)));
   (68719476734, (21146, ("dB"%string, 2, 0, 8)));
   (68719476734, (21147, ("Numeric"%string, 0, 0, 5)));
   (536739840, (21148, ("FLAG TABLE"%string, 0, 0, 9)));
   (68182605824, (21148, ("Flag table"%string, 0, 0, 9)));
   (536870910, (21150, ("CODE TABLE"%string, 0, 0, 2)));
   (68182605824, (21150, ("Code table"%string, 0, 0, 2)));
   (68719476734, (21151, ("dB"%string, 2, 0, 9)));
   (68719476734, (21152, ("dB/deg"%string, 2, -80, 7)));
   (68719476734, (21153, ("dB/deg"%string, 2, -40, 6)));
   (68719476734, (21154, ("dB"%string, 2, 0, 12)));
   (536870910, (21155, ("FLAG TABLE"%string, 0, 0, 24)));
   (68182605824, (21155, ("Flag table"%string, 0, 0, 24)));
   (68719476734, (21156, ("Numeric"%string, 1, -4096, 13)));
   (68719476734, (21157, ("dB/m"%string, 10, 0, 22)));
   (536870910, (21158, ("CODE TABLE"%string, 0, 0, 2)));
   (68182605824, (21158, ("Code table"%string, 0, 0, 2)));
   (536870910, (21159, ("CODE TABLE"%string, 0, 0, 2)));
   (68182605824, (21159, ("Code table"%string, 0, 0, 2)));
   (68719476734, (21160, ("Numeric"%string, 3, 0, 10)));
   (68719476734, (21161, ("Numeric"%string, 3, 0, 10)));
   (68719476734, (21162, ("Numeric"%string, 3, 0, 10)));
   (68719476734, (21163, ("Numeric"%string, 3, 0, 10)));
   (68719476734, (21164, ("Numeric"%string, 3, 0, 10)));
   (68719476734, (21165, ("Numeric"%string, 3, 0, 10)));
   (68719476734, (21166, ("Numeric"%string, 3, 0, 10)));
   (536870910, (21169, ("CODE TABLE"%string, 0, 0, 2)));
   (68182605824, (21169, ("Code table"%string, 0, 0, 2)));
   (68719476734, (21170, ("dB"%string, 2, -32768, 16)));
   (68719476734, (21171, ("dB"%string, 2, -32768, 16)));
   (68719476734, (21172, ("dB"%string, 2, -2048, 12)));
   (68719476734, (21173, ("dB"%string, 2, 0, 13)));
   (68719476734, (21174, ("dB"%string, 2, 0, 9)));
   (68719476734, (21175, ("Numeric"%string, 0, 0, 10)));
   (68719468544, (21176, ("m"%string, 3, 0, 16)));
   (68719468544, (21177, ("dB"%string, 2, 0, 16)));
   (68719468544, (21178, ("dB"%string, 2, 0, 16)));
   (68719468544, (21179, ("Numeric"%string, 0, 0, 16)));
   (68719468544, (21180, ("Numeric"%string, 0, 0, 8)));
   (68719468544, (21181, ("dB"%string, 2, 0, 16)));
   (68719468544, (21182, ("Numeric"%string, 3, 0, 16)));
   (68719345664, (21183, ("dB"%string, 2, -32768, 16)));
   (68719345664, (21184, ("dB"%string, 2, -32768, 16)));
   (68719345664, (21185, ("dB"%string, 2, -2048, 12)));
   (68719345664, (21186, ("dB"%string, 2, 0, 13)));
   (68719345664, (21187, ("dB"%string, 2, 0, 8)));
   (68719345664, (21188, ("Numeric"%string, 0, 0, 7)));
   (68182605824, (21189, ("dB"%string, 2, -32768, 16)));
   (618475290624, (21192, ("dB"%string, 2, -5000, 13)));
   (618475290624, (21193, ("%"%string, 0, 0, 7)));
   (618475290624, (21194, ("Numeric"%string, 0, 0, 8)));
   (618475290624, (21195, ("Numeric"%string, 0, -127, 8)));
   (618475290624, (21196, ("FLAG TABLE"%string, 0, 0, 12)));
   (618475290624, (21197, ("FLAG TABLE"%string, 0, 0, 12)));
   (618475290624, (21198, ("FLAG TABLE"%string, 0, 0, 8)));
   (618475290624, (21199, ("FLAG TABLE"%string, 0, 0, 7)));
   (618475290624, (21200, ("FLAG TABLE"%string, 0, 0, 15)));
   (618475290624, (21201, ("Numeric"%string, 0, 0, 16)));
   (618475290624, (21202, ("FLAG TABLE"%string, 0, 0, 4)));
   (618475290624, (21203, ("FLAG TABLE"%string, 0, 0, 9)));
   (618475290624, (21204, ("K"%string, 2, -512, 10)));
   (618475290624, (21205, ("Numeric"%string, 0, 0, 8)));
   (618475290624, (21206, ("CODE TABLE"%string, 0, 0, 3)));
   (618475290624, (21207, ("m"%string, 3, 0, 14)));
   (618475290624, (21208, ("m"%string, 3, 0, 9)));
   (618475290624, (21209, ("m"%string, 3, 2000, 10)));
   (618475290624, (21210, ("m"%string, 3, 0, 11)));
   (618475290624, (21211, ("m"%string, 3, 0, 10)));
   (618475290624, (21212, ("dB"%string, 3, -3000, 14)));
   (618475290624, (21213, ("%"%string, 0, 0, 7)));
   (618475290624, (21214, ("CODE TABLE"%string, 0, 0, 3)));
   (618475290624, (21215, ("Numeric"%string, 0, 0, 4)));
   (618475290624, (21222, ("dB"%string, 0, 0, 7)));
   (618475290624, (21225, ("FLAG TABLE"%string, 0, 0, 6)));
   (618475290624, (21226, ("Numeric"%string, 1, -4096, 13)));
   (68719476736, (21227, ("CODE TABLE"%string, 0, 6, 6)));
   (618475290624, (21230, ("Numeric"%string, 0, 0, 3)));
   (618475290624, (21231, ("Numeric"%string, 0, 0, 3)));
   (618475290624, (21232, ("Numeric"%string, 0, 0, 5)));
   (618475290624, (21233, ("Numeric"%string, 0, 0, 5)));
   (618475290624, (21234, ("Numeric"%string, 1, -10000, 14)));
   (618475290624, (21235, ("FLAG TABLE"%string, 0, 0, 3)));
   (618475290624, (21236, ("Numeric"%string, 1, 0, 6)));
   (618475290624, (21237, ("Numeric"%string, 1, 0, 6)));
   (618475290624, (21238, ("Numeric"%string, 1, 0, 6)));
   (618475290624, (21239, ("Numeric"%string, 1, 0, 6)));
   (618475290624, (21240, ("Numeric"%string, 2, -10000, 14)));
   (618475290624, (21241, ("Numeric"%string, 5, 0, 14)));
   (618475290624, (21242, ("Numeric"%string, 6, 0, 16)));
   (618475290624, (21243, ("Numeric"%string, 6, 0, 16)));
   (618475290624, (21244, ("FLAG TABLE"%string, 0, 0, 15)));
   (536870911, (22001, ("deg"%string, 0, 0, 9)));
   (68182605824, (22001, ("degree true"%string, 0, 0, 9)));
   (536870911, (22002, ("deg"%string, 0, 0, 9)));
   (68182605824, (22002, ("degree true"%string, 0, 0, 9)));
   (536870911, (22003, ("deg"%string, 0, 0, 9)));
   (68182605824, (22003, ("degree true"%string, 0, 0, 9)));
   (536870911, (22004, ("deg"%string, 0, 0, 9)));
   (68182605824, (22004, ("degree true"%string, 0, 0, 9)));
   (536870910, (22005, ("deg"%string, 0, 0, 9)));
   (68182605824, (22005, ("degree true"%string, 0, 0, 9)));
   (68719476735, (22011, ("s"%string, 0, 0, 6)));
   (68719476735, (22012, ("s"%string, 0, 0, 6)));
   (68719476735, (22013, ("s"%string, 0, 0, 6)));
   (68719476735, (22021, ("m"%string, 1, 0, 10)));
   (68719476735, (22022, ("m"%string, 1, 0, 10)));
   (68719476735, (22023, ("m"%string, 1, 0, 10)));
   (68719476735, (22025, ("m"%string, 2, 0, 10)));
   (68719476735, (22026, ("m"%string, 2, 0, 10)));
   (68719476735, (22031, ("m/s"%string, 2, 0, 13)));
   (68719476734, (22032, ("m/s"%string, 2, 0, 13)));
   (68719476734, (22035, ("m"%string, 2, 0, 14)));
   (68719476734, (22036, ("m"%string, 2, 0, 14)));
   (68719476735, (22037, ("m"%string, 3, -10000, 15)));
   (68719476735, (22038, ("m"%string, 3, -10000, 15)));
   (1023, (22039, ("m"%string, 3, -5000, 12)));
   (68719475712, (22039, ("m"%string, 3, -5000, 13)));
   (68719476735, (22040, ("m"%string, 3, -5000, 14)));
   (68719476735, (22041, ("K"%string, 1, 0, 12)));
   (68719476735, (22042, ("K"%string, 1, 0, 12)));
   (68719476735, (22043, ("K"%string, 2, 0, 15)));
   (68719476735, (22044, ("m/s"%string, 1, 0, 14)));
   (68719476734, (22045, ("K"%string, 3, 0, 19)));
   (68719476480, (22046, ("Numeric"%string, 2, 0, 7)));
   (68719476734, (22049, ("K"%string, 2, 0, 15)));
   (68719476735, (22050, ("K"%string, 2, 0, 8)));
   (68719476734, (22055, ("Numeric"%string, 0, 0, 10)));
   (536870910, (22056, ("CODE TABLE"%string, 0, 0, 2)));
   (68182605824, (22056, ("Code table"%string, 0, 0, 2)));
   (68719476734, (22059, ("0/00"%string, 2, 0, 14)));
   (536870910, (22060, ("CODE TABLE"%string, 0, 0, 3)));
   (68182605824, (22060, ("Code table"%string, 0, 0, 3)));
   (536870911, (22061, ("CODE TABLE"%string, 0, 0, 4)));
   (68182605824, (22061, ("Code table"%string, 0, 0, 4)));
   (1, (22062, ("%"%string, 2, 0, 14)));
   (68719476734, (22062, ("0/00"%string, 2, 0, 14)));
   (68719476735, (22063, ("m"%string, 0, 0, 14)));
   (68719476734, (22064, ("0/00"%string, 3, 0, 17)));
   (68719476734, (22065, ("Pa"%string, -3, 0, 17)));
   (68719476734, (22066, ("S/m"%string, 6, 0, 26)));
   (536870911, (22067, ("CODE TABLE"%string, 0, 0, 10)));
   (68182605824, (22067, ("Code table"%string, 0, 0, 10)));
   (536870911, (22068, ("CODE TABLE"%string, 0, 0, 7)));
   (68182605824, (22068, ("Code table"%string, 0, 0, 7)));
   (68719476734, (22069, ("m2/Hz"%string, 3, 0, 22)));
   (68719476735, (22070, ("m"%string, 2, 0, 13)));
   (68719476735, (22071, ("s"%string, 1, 0, 9)));
   (68719476735, (22072, ("m"%string, 0, 0, 13)));
   (68719476735, (22073, ("m"%string, 2, 0, 13)));
   (68719476735, (22074, ("s"%string, 1, 0, 9)));
   (68719476735, (22075, ("m"%string, 0, 0, 13)));
   (536870911, (22076, ("deg"%string, 0, 0, 9)));
   (68182605824, (22076, ("degree true"%string, 0, 0, 9)));
   (68719476735, (22077, ("deg"%string, 0, 0, 9)));
   (68719476735, (22078, ("s"%string, 0, 0, 12)));
   (68719476735, (22079, ("m"%string, 0, 0, 16)));
   (68719476735, (22080, ("Hz"%string, 3, 0, 10)));
   (68719476735, (22081, ("/m"%string, 5, 0, 13)));
   (68719476735, (22082, ("m2 s"%string, 2, 0, 20)));
   (68719476735, (22083, ("m3"%string, 2, 0, 20)));
   (68719476735, (22084, ("Numeric"%string, 0, 0, 7)));
   (68719476735, (22085, ("Numeric"%string, 0, 0, 7)));
   (536870911, (22086, ("deg"%string, 0, 0, 9)));
   (68182605824, (22086, ("degree true"%string, 0, 0, 9)));
   (536870911, (22087, ("deg"%string, 0, 0, 9)));
   (68182605824, (22087, ("degree true"%string, 0, 0, 9)));
   (68719476735, (22088, ("Numeric"%string, 2, 0, 7)));
   (68719476735, (22089, ("Numeric"%string, 2, 0, 7)));
   (68719476735, (22090, ("m2 s"%string, 2, 0, 20)));
   (68719476735, (22091, ("m3"%string, 2, 0, 20)));
   (68719476735, (22092, ("m2 rad-1 s"%string, 2, 0, 20)));
   (68719476735, (22093, ("m4"%string, 2, 0, 20)));
   (68719476735, (22094, ("Numeric"%string, 0, 0, 7)));
   (68719476735, (22095, ("deg"%string, 0, 0, 8)));
   (68719476735, (22096, ("/s"%string, 3, 0, 4)));
   (68719476735, (22097, ("m"%string, 0, 0, 14)));
   (68719476735, (22098, ("m"%string, 0, 0, 14)));
   (536870911, (22099, ("deg"%string, 0, 0, 9)));
   (68182605824, (22099, ("degree true"%string, 0, 0, 9)));
   (68719476735, (22100, ("deg"%string, 0, 0, 9)));
   (68719476735, (22101, ("Numeric"%string, 0, 0, 31)));
   (68718428160, (22102, ("m2 s"%string, 0, 0, 14)));
   (68718428160, (22103, ("m3"%string, 0, 0, 14)));
   (68718428160, (22104, ("m2 s"%string, 0, 0, 14)));
   (68718428160, (22105, ("m3"%string, 0, 0, 14)));
   (535822336, (22106, ("m2 rad-1 s"%string, 0, 0, 14)));
   (68182605824, (22106, ("m2 s rad-1"%string, 0, 0, 14)));
   (68718428160, (22107, ("m4"%string, 0, 0, 14)));
   (68718428160, (22108, ("%"%string, 0, 0, 7)));
   (536870911, (22120, ("CODE TABLE"%string, 0, 0, 5)));
   (68182605824, (22120, ("Code table"%string, 0, 0, 5)));
   (536870911, (22121, ("CODE TABLE"%string, 0, 0, 5)));
   (68182605824, (22121, ("Code table"%string, 0, 0, 5)));
   (536870911, (22122, ("CODE TABLE"%string, 0, 0, 5)));
   (68182605824, (22122, ("Code table"%string, 0, 0, 5)));
   (536870911, (22123, ("CODE TABLE"%string, 0, 0, 5)));
   (68182605824, (22123, ("Code table"%string, 0, 0, 5)));
   (68719345664, (22130, ("Numeric"%string, 0, 0, 10)));
   (68719345664, (22131, ("m"%string, 3, 0, 16)));
   (68719345664, (22132, ("Numeric"%string, 0, 0, 10)));
   (68719345664, (22133, ("m"%string, 3, -1000, 11)));
   (68719345664, (22134, ("Numeric"%string, 0, 0, 10)));
   (68719476734, (22141, ("K"%string, 2, 0, 15)));
   (68719468544, (22142, ("m2"%string, 3, -33554432, 26)));
   (68719468544, (22143, ("m2"%string, 3, -8388608, 24)));
   (68719468544, (22144, ("Numeric"%string, 0, 0, 9)));
   (68719468544, (22145, ("m"%string, 3, -33554432, 31)));
   (68719468544, (22146, ("m"%string, 3, 0, 31)));
   (68719468544, (22147, ("m"%string, 3, -8388608, 31)));
   (68719468544, (22148, ("Numeric"%string, 0, 0, 9)));
   (68719468544, (22149, ("m2"%string, 3, -33554432, 26)));
   (68719476734, (22150, ("Numeric"%string, 0, 0, 10)));
   (68719476734, (22151, ("m"%string, 3, 0, 31)));
   (68719476734, (22152, ("m"%string, 3, 0, 16)));
   (68719476734, (22153, ("Numeric"%string, 0, 0, 10)));
   (68719476734, (22154, ("m"%string, 3, 0, 31)));
   (68719476734, (22155, ("m"%string, 3, 0, 16)));
   (68719476734, (22156, ("m"%string, 3, 0, 16)));
   (68719476734, (22157, ("m"%string, 3, 0, 16)));
   (68719476734, (22158, ("m"%string, 3, 0, 16)));
   (68719476734, (22159, ("m"%string, 3, 0, 16)));
   (68719476734, (22160, ("Numeric"%string, 6, 0, 21)));
   (68719476734, (22161, ("m4"%string, 4, 0, 27)));
   (68719476734, (22162, ("m"%string, 3, 0, 16)));
   (68719476734, (22163, ("Numeric"%string, 0, 0, 10)));
   (68719476734, (22164, ("m"%string, 3, 0, 16)));
   (68719476734, (22165, ("Numeric"%string, 0, 0, 10)));
   (68719476734, (22166, ("m"%string, 3, -1000, 11)));
   (68719476734, (22167, ("Numeric"%string, 0, 0, 10)));
   (68719476734, (22168, ("m"%string, 3, 0, 31)));
   (68719476734, (22169, ("m"%string, 3, 0, 16)));
   (68719476734, (22170, ("Numeric"%string, 0, 0, 10)));
   (68719476734, (22171, ("m"%string, 3, 0, 16)));
   (68719476734, (22172, ("m"%string, 3, 0, 16)));
   (68719476734, (22173, ("Numeric"%string, 0, 0, 10)));
   (68719476734, (22174, ("m"%string, 3, -1000, 11)));
   (68719476734, (22175, ("Numeric"%string, 0, 0, 10)));
   (7936, (22176, ("CCITT IA5"%string, 0, 0, 72)));
   (68719468544, (22177, ("m"%string, 0, 0, 6)));
   (7936, (22177, ("m"%string, 1, 0, 9)));
   (536870656, (22178, ("CODE TABLE"%string, 0, 0, 8)));
   (68182605824, (22178, ("Code table"%string, 0, 0, 8)));
   (7936, (22179, ("CCITT IA5"%string, 0, 0, 256)));
   (68182605824, (22179, ("m"%string, 3, -500, 16)));
   (7936, (22180, ("CCITT IA5"%string, 0, 0, 256)));
   (7936, (22181, ("CCITT IA5"%string, 0, 0, 32)));
   (68719476480, (22182, ("m"%string, 3, 0, 23)));
   (68719476480, (22184, ("m"%string, 3, -2000, 12)));
   (68719476480, (22185, ("Numeric"%string, 0, 0, 10)));
   (535830526, (22186, ("deg"%string, 0, 0, 9)));
   (68182605824, (22186, ("degree true"%string, 0, 0, 9)));
   (68718436350, (22187, ("deg"%string, 0, 0, 9)));
   (68719411200, (22188, ("umol/kg"%string, 3, 0, 19)));
   (68719345664, (22189, ("m"%string, 3, 0, 31)));
   (68719345664, (22190, ("m"%string, 3, 0, 16)));
   (68719345664, (22191, ("m"%string, 4, 0, 16)));
   (4095, (22191, ("m2 rad-1 s"%string, 2, 0, 20)));
   (618475290624, (22192, ("s"%string, 2, 0, 13)));
   (618475290624, (22193, ("/m"%string, 5, 0, 15)));
   (618475290624, (22194, ("/m"%string, 5, 0, 15)));
   (618475290624, (22195, ("deg"%string, 1, 0, 13)));
   (618475290624, (22196, ("deg"%string, 1, 0, 13)));
   (618475290624, (22197, ("deg"%string, 1, 0, 13)));
   (618475290624, (22198, ("m2 rad-1 s"%string, 4, 0, 18)));
   (618475290624, (22199, ("Numeric"%string, 4, -10000, 15)));
   (618475290624, (22200, ("Numeric"%string, 4, -10000, 15)));
   (618475290624, (22201, ("Numeric"%string, 4, -10000, 15)));
   (618475290624, (22202, ("Numeric"%string, 5, 0, 21)));
   (618475290624, (22203, ("Numeric"%string, 5, 0, 21)));
   (618475290624, (22204, ("s"%string, 2, 0, 13)));
   (618475290624, (22205, ("m2 rad-1 s"%string, 4, 0, 25)));
   (618475290624, (22206, ("s"%string, 2, 0, 13)));
   (618475290624, (22207, ("s"%string, 1, 0, 10)));
   (618475290624, (22208, ("s"%string, 1, 0, 10)));
   (618475290624, (22209, ("Numeric"%string, 6, 0, 13)));
   (618475290624, (22210, ("Numeric"%string, 4, -10000, 14)));
   (618475290624, (22211, ("Numeric"%string, 6, 0, 17)));
   (618475290624, (22243, ("m"%string, 2, 0, 10)));
   (536870911, (23001, ("CODE TABLE"%string, 0, 0, 3)));
   (68182605824, (23001, ("Code table"%string, 0, 0, 3)));
   (536870911, (23002, ("CODE TABLE"%string, 0, 0, 5)));
   (68182605824, (23002, ("Code table"%string, 0, 0, 5)));
   (536870911, (23003, ("CODE TABLE"%string, 0, 0, 3)));
   (68182605824, (23003, ("Code table"%string, 0, 0, 3)));
   (536870911, (23004, ("CODE TABLE"%string, 0, 0, 3)));
   (68182605824, (23004, ("Code table"%string, 0, 0, 3)));
   (536870911, (23005, ("CODE TABLE"%string, 0, 0, 2)));
   (68182605824, (23005, ("Code table"%string, 0, 0, 2)));
   (536870911, (23006, ("CODE TABLE"%string, 0, 0, 3)));
   (68182605824, (23006, ("Code table"%string, 0, 0, 3)));
   (536870911, (23007, ("CODE TABLE"%string, 0, 0, 3)));
   (68182605824, (23007, ("Code table"%string, 0, 0, 3)));
   (536870911, (23008, ("CODE TABLE"%string, 0, 0, 2)));
   (68182605824, (23008, ("Code table"%string, 0, 0, 2)));
   (536870911, (23009, ("CODE TABLE"%string, 0, 0, 2)));
   (68182605824, (23009, ("Code table"%string, 0, 0, 2)));
   (536870911, (23016, ("CODE TABLE"%string, 0, 0, 2)));
   (68182605824, (23016, ("Code table"%string, 0, 0, 2)));
   (68719476735, (23017, ("m3/s"%string, 6, 0, 20)));
   (536870911, (23018, ("CODE TABLE"%string, 0, 0, 3)));
   (68182605824, (23018, ("Code table"%string, 0, 0, 3)));
   (68719476735, (23019, ("m"%string, 0, -15000, 17)));
   (68719476735, (23021, ("m"%string, 0, -15000, 17)));
   (68719476735, (23022, ("m"%string, 0, 0, 24)));
   (68719476735, (23023, ("m/s"%string, 1, 0, 12)));
   (68719476735, (23024, ("m/s"%string, 2, 0, 13)));
   (68719476735, (23025, ("m/s"%string, 2, 0, 13)));
   (536870911, (23027, ("deg"%string, 0, 0, 9)));
   (68182605824, (23027, ("degree true"%string, 0, 0, 9)));
   (536870911, (23028, ("deg"%string, 0, 0, 9)));
   (68182605824, (23028, ("degree true"%string, 0, 0, 9)));
   (536870911, (23029, ("deg"%string, 0, 0, 9)));
   (68182605824, (23029, ("degree true"%string, 0, 0, 9)));
   (536870911, (23031, ("CODE TABLE"%string, 0, 0, 2)));
   (68182605824, (23031, ("Code table"%string, 0, 0, 2)));
   (536870911, (23032, ("CODE TABLE"%string, 0, 0, 2)));
   (68182605824, (23032, ("Code table"%string, 0, 0, 2)));
   (68719476480, (23040, ("m3/s"%string, 1, 0, 22)));
   (68719476480, (23041, ("m3/s"%string, 3, 0, 16)));
   (68719476735, (24001, ("Bq"%string, -11, 0, 28)));
   (68719476735, (24002, ("Bq"%string, -11, 0, 28)));
   (536870911, (24003, ("CODE TABLE"%string, 0, 0, 5)));
   (68182605824, (24003, ("Code table"%string, 0, 0, 5)));
   (68719476735, (24004, ("CCITT IA5"%string, 0, 0, 16)));
   (68719476735, (24005, ("Numeric"%string, 0, 0, 9)));
   (68719476735, (24011, ("mSv"%string, 2, 0, 32)));
   (68719476735, (24012, ("mSv"%string, 2, 0, 32)));
   (68719476735, (24013, ("mSv"%string, 2, 0, 32)));
   (68719476480, (24014, ("nSv/h"%string, 1, 0, 14)));
   (68719476735, (24021, ("Bq m-3"%string, 2, 0, 32)));
   (68719476735, (24022, ("Bq/l"%string, 2, 0, 32)));
   (68719476734, (24023, ("/s"%string, 1, 0, 14)));
   (68719476734, (24024, ("/s"%string, 1, 0, 14)));
   (68719476735, (25001, ("m"%string, -1, 0, 6)));
   (68719476735, (25002, ("Numeric"%string, 0, 0, 4)));
   (68719476735, (25003, ("Numeric"%string, 0, 0, 8)));
   (536870911, (25004, ("CODE TABLE"%string, 0, 0, 2)));
   (68182605824, (25004, ("Code table"%string, 0, 0, 2)));
   (536870911, (25005, ("CODE TABLE"%string, 0, 0, 2)));
   (68182605824, (25005, ("Code table"%string, 0, 0, 2)));
   (536870911, (25006, ("CODE TABLE"%string, 0, 0, 3)));
   (68182605824, (25006, ("Code table"%string, 0, 0, 3)));
   (68719476735, (25007, ("Numeric"%string, 0, 0, 12)));
   (68719476735, (25008, ("Numeric"%string, 2, 0, 9)));
   (536870911, (25009, ("FLAG TABLE"%string, 0, 0, 4)));
   (68182605824, (25009, ("Flag table"%string, 0, 0, 4)));
   (536870911, (25010, ("CODE TABLE"%string, 0, 0, 4)));
   (68182605824, (25010, ("Code table"%string, 0, 0, 4)));
   (536870911, (25011, ("CODE TABLE"%string, 0, 0, 2)));
   (68182605824, (25011, ("Code table"%string, 0, 0, 2)));
   (536870911, (25012, ("CODE TABLE"%string, 0, 0, 2)));
   (68182605824, (25012, ("Code table"%string, 0, 0, 2)));
   (536870911, (25013, ("FLAG TABLE"%string, 0, 0, 2)));
   (68182605824, (25013, ("Flag table"%string, 0, 0, 2)));
   (68719476735, (25014, ("Numeric"%string, 0, 0, 12)));
   (536870911, (25015, ("FLAG TABLE"%string, 0, 0, 2)));
   (68182605824, (25015, ("Flag table"%string, 0, 0, 2)));
   (68719476735, (25016, ("dB/m"%string, 5, 0, 6)));
   (536870911, (25017, ("FLAG TABLE"%string, 0, 0, 2)));
   (68182605824, (25017, ("Flag table"%string, 0, 0, 2)));
   (68719476735, (25018, ("Numeric"%string, 7, 0, 6)));
   (68719476735, (25019, ("Numeric"%string, 2, 0, 7)));
   (536870911, (25020, ("CODE TABLE"%string, 0, 0, 2)));
   (68182605824, (25020, ("Code table"%string, 0, 0, 2)));
   (536870911, (25021, ("FLAG TABLE"%string, 0, 0, 8)));
   (68182605824, (25021, ("Flag table"%string, 0, 0, 8)));
   (536870656, (25022, ("FLAG TABLE"%string, 0, 0, 9)));
   (68182605824, (25022, ("Flag table"%string, 0, 0, 9)));
   (536870656, (25023, ("FLAG TABLE"%string, 0, 0, 9)));
   (68182605824, (25023, ("Flag table"%string, 0, 0, 9)));
   (536870656, (25024, ("CODE TABLE"%string, 0, 0, 4)));
   (68182605824, (25024, ("Code table"%string, 0, 0, 4)));
   (68719476734, (25025, ("V"%string, 1, 0, 9)));
   (68719476734, (25026, ("V"%string, 1, 0, 12)));
   (68719476734, (25028, ("Numeric"%string, 1, -16384, 15)));
   (536870910, (25029, ("FLAG TABLE"%string, 0, 0, 6)));
   (68182605824, (25029, ("Flag table"%string, 0, 0, 6)));
   (536870911, (25030, ("CODE TABLE"%string, 0, 0, 2)));
   (68182605824, (25030, ("Code table"%string, 0, 0, 2)));
   (536870656, (25031, ("CODE TABLE"%string, 0, 0, 3)));
   (68182605824, (25031, ("Code table"%string, 0, 0, 3)));
   (536870911, (25032, ("CODE TABLE"%string, 0, 0, 2)));
   (68182605824, (25032, ("Code table"%string, 0, 0, 2)));
   (536870911, (25033, ("CODE TABLE"%string, 0, 0, 2)));
   (68182605824, (25033, ("Code table"%string, 0, 0, 2)));
   (536870911, (25034, ("FLAG TABLE"%string, 0, 0, 4)));
   (68182605824, (25034, ("Flag table"%string, 0, 0, 4)));
   (536870656, (25035, ("CODE TABLE"%string, 0, 0, 3)));
   (68182605824, (25035, ("Code table"%string, 0, 0, 3)));
   (536870910, (25036, ("CODE TABLE"%string, 0, 0, 4)));
   (68182605824, (25036, ("Code table"%string, 0, 0, 4)));
   (68719476480, (25037, ("K"%string, 2, -127, 8)));
   (68719476480, (25038, ("K"%string, 1, -127, 8)));
   (536870911, (25040, ("CODE TABLE"%string, 0, 0, 4)));
   (68182605824, (25040, ("Code table"%string, 0, 0, 4)));
   (536870911, (25041, ("CODE TABLE"%string, 0, 0, 2)));
   (68182605824, (25041, ("Code table"%string, 0, 0, 2)));
   (536870911, (25042, ("CODE TABLE"%string, 0, 0, 2)));
   (68182605824, (25042, ("Code table"%string, 0, 0, 2)));
   (68719476735, (25043, ("s"%string, 4, 0, 15)));
   (68719476735, (25044, ("m"%string, 2, 0, 14)));
   (536870911, (25045, ("FLAG TABLE"%string, 0, 0, 21)));
   (68182605824, (25045, ("Flag table"%string, 0, 0, 21)));
   (536870911, (25046, ("FLAG TABLE"%string, 0, 0, 5)));
   (68182605824, (25046, ("Flag table"%string, 0, 0, 5)));
   (536870911, (25047, ("FLAG TABLE"%string, 0, 0, 4)));
   (68182605824, (25047, ("Flag table"%string, 0, 0, 4)));
   (536870911, (25048, ("FLAG TABLE"%string, 0, 0, 16)));
   (68182605824, (25048, ("Flag table"%string, 0, 0, 16)));
   (536870911, (25049, ("FLAG TABLE"%string, 0, 0, 6)));
   (68182605824, (25049, ("Flag table"%string, 0, 0, 6)));
   (68719476735, (25050, ("Numeric"%string, 4, -131072, 18)));
   (536870911, (25051, ("FLAG TABLE"%string, 0, 0, 7)));
   (68182605824, (25051, ("Flag table"%string, 0, 0, 7)));
   (68719476734, (25052, ("Numeric"%string, 4, 0, 15)));
   (536870911, (25053, ("FLAG TABLE"%string, 0, 0, 12)));
   (68182605824, (25053, ("Flag table"%string, 0, 0, 12)));
   (68719476734, (25054, ("Numeric"%string, 0, 0, 5)));
   (68719476734, (25055, ("K"%string, 2, 0, 16)));
   (51539607552, (25056, ("Numeric"%string, 4, 0, 14)));
   (68719476735, (25060, ("Numeric"%string, 0, 0, 14)));
   (68719476734, (25061, ("CCITT IA5"%string, 0, 0, 96)));
   (68719476734, (25062, ("Numeric"%string, 0, 0, 14)));
   (536870656, (25063, ("CODE TABLE"%string, 0, 0, 8)));
   (68182605824, (25063, ("Code table"%string, 0, 0, 8)));
   (68719476734, (25065, ("deg"%string, 2, -1000, 11)));
   (68719476734, (25066, ("deg"%string, 2, -1000, 11)));
   (68719476734, (25067, ("Pa"%string, 0, -8000, 14)));
   (68719476734, (25068, ("Numeric"%string, 0, 0, 7)));
   (536870910, (25069, ("FLAG TABLE"%string, 0, 0, 8)));
   (68182605824, (25069, ("Flag table"%string, 0, 0, 8)));
   (68719476735, (25070, ("Numeric"%string, 0, 0, 4)));
   (68719476735, (25071, ("Numeric"%string, 0, 0, 5)));
   (68719476735, (25075, ("Numeric"%string, 0, 0, 5)));
   (68719476735, (25076, ("log (m-1)"%string, 8, 0, 30)));
   (68719476735, (25077, ("Numeric"%string, 5, -100000, 18)));
   (68719476735, (25078, ("Numeric"%string, 5, 0, 17)));
   (68719476735, (25079, ("W m-2"%string, 4, 0, 24)));
   (68719476735, (25080, ("m"%string, 10, 0, 14)));
   (68719476734, (25081, ("deg"%string, 3, 0, 17)));
   (68719476734, (25082, ("deg"%string, 3, 0, 19)));
   (68719476734, (25083, ("deg"%string, 3, 0, 19)));
   (68719476734, (25084, ("deg"%string, 5, 0, 26)));
   (68719476735, (25085, ("Numeric"%string, 0, 0, 7)));
   (536870910, (25086, ("CODE TABLE"%string, 0, 0, 2)));
   (68182605824, (25086, ("Code table"%string, 0, 0, 2)));
   (536870910, (25090, ("CODE TABLE"%string, 0, 0, 4)));
   (68182605824, (25090, ("Code table"%string, 0, 0, 4)));
   (68719476735, (25091, ("dB"%string, 3, -18192, 13)));
   (68719476735, (25092, ("m/s"%string, 2, 28000, 14)));
   (536870910, (25093, ("FLAG TABLE"%string, 0, 0, 8)));
   (68182605824, (25093, ("Flag table"%string, 0, 0, 8)));
   (536870910, (25095, ("FLAG TABLE"%string, 0, 0, 2)));
   (68182605824, (25095, ("Flag table"%string, 0, 0, 2)));
   (536870910, (25096, ("FLAG TABLE"%string, 0, 0, 5)));
   (68182605824, (25096, ("Flag table"%string, 0, 0, 5)));
   (536870910, (25097, ("CODE TABLE"%string, 0, 0, 4)));
   (68182605824, (25097, ("Code table"%string, 0, 0, 4)));
   (536870910, (25098, ("FLAG TABLE"%string, 0, 0, 9)));
   (68182605824, (25098, ("Flag table"%string, 0, 0, 9)));
   (536870910, (25099, ("FLAG TABLE"%string, 0, 0, 9)));
   (68182605824, (25099, ("Flag table"%string, 0, 0, 9)));
   (68719476734, (25100, ("Numeric"%string, 5, 0, 20)));
   (68719476734, (25101, ("Numeric"%string, 5, -500000, 21)));
   (68719476734, (25102, ("Numeric"%string, 0, 0, 8)));
   (68719476734, (25103, ("Numeric"%string, 0, 0, 8)));
   (68719476734, (25104, ("Numeric"%string, 0, 0, 8)));
   (68719476734, (25105, ("deg"%string, 3, 0, 19)));
   (68719476734, (25106, ("deg"%string, 3, 0, 19)));
   (68719476734, (25107, ("m"%string, 3, 0, 29)));
   (68719476734, (25108, ("m"%string, 3, 0, 29)));
   (536870910, (25110, ("FLAG TABLE"%string, 0, 0, 10)));
   (68182605824, (25110, ("Flag table"%string, 0, 0, 10)));
   (68719476734, (25111, ("Numeric"%string, 0, 0, 8)));
   (536739840, (25112, ("FLAG TABLE"%string, 0, 0, 9)));
   (68182605824, (25112, ("Flag table"%string, 0, 0, 9)));
   (536739840, (25113, ("FLAG TABLE"%string, 0, 0, 9)));
   (68182605824, (25113, ("Flag table"%string, 0, 0, 9)));
   (536870910, (25120, ("CODE TABLE"%string, 0, 0, 2)));
   (68182605824, (25120, ("Code table"%string, 0, 0, 2)));
   (68719476734, (25121, ("%"%string, 0, 0, 7)));
   (536870910, (25122, ("CODE TABLE"%string, 0, 0, 2)));
   (68182605824, (25122, ("Code table"%string, 0, 0, 2)));
   (536870910, (25123, ("CODE TABLE"%string, 0, 0, 2)));
   (68182605824, (25123, ("Code table"%string, 0, 0, 2)));
   (536870910, (25124, ("CODE TABLE"%string, 0, 0, 2)));
   (68182605824, (25124, ("Code table"%string, 0, 0, 2)));
   (68719476734, (25125, ("%"%string, 0, 0, 7)));
   (68719476734, (25126, ("m"%string, 3, -32768, 16)));
   (68719476734, (25127, ("m"%string, 3, -32768, 16)));
   (68719476734, (25128, ("m"%string, 3, -32768, 16)));
   (68719476734, (25129, ("m"%string, 3, -32768, 16)));
   (68719476734, (25130, ("m"%string, 3, -32768, 16)));
   (68719476734, (25131, ("m"%string, 3, -32768, 16)));
   (68719476734, (25132, ("m"%string, 3, -32768, 16)));
   (68719476734, (25133, ("m"%string, 3, -32768, 16)));
   (68719476734, (25134, ("m"%string, 3, -32768, 16)));
   (68719476734, (25135, ("m"%string, 3, -32768, 16)));
   (68719476734, (25136, ("m"%string, 3, -32768, 16)));
   (68719476734, (25137, ("m"%string, 3, -32768, 16)));
   (68719476734, (25138, ("Numeric"%string, 0, -2048, 12)));
   (64424509440, (25139, ("Numeric"%string, 0, 0, 5)));
   (68719476734, (25140, ("Numeric"%string, 0, 0, 14)));
   (68719476734, (25141, ("Numeric"%string, 0, 0, 14)));
   (68719476734, (25142, ("Numeric"%string, 0, 0, 6)));
   (68719476734, (25143, ("Numeric"%string, 6, -5000000, 24)));
   (34359738368, (25144, ("Numeric"%string, 0, 0, 6)));
   (7936, (25144, ("Numeric"%string, 0, 0, 9)));
   (34359738368, (25145, ("Numeric"%string, 0, 0, 6)));
   (7936, (25145, ("Numeric"%string, 0, 0, 9)));
   (68711088128, (25148, ("Numeric"%string, 2, -10000, 15)));
   (68711088128, (25149, ("Numeric"%string, 0, 0, 8)));
   (536870910, (25150, ("CODE TABLE"%string, 0, 0, 4)));
   (68182605824, (25150, ("Code table"%string, 0, 0, 4)));
   (7936, (25151, ("Numeric"%string, 3, -20000, 14)));
   (7936, (25152, ("K"%string, 0, 0, 17)));
   (7936, (25153, ("CODE TABLE"%string, 0, 0, 2)));
   (68719476734, (25160, ("m"%string, 4, -120000, 18)));
   (68719476734, (25161, ("m"%string, 4, -120000, 18)));
   (68719476734, (25162, ("m"%string, 4, -6000, 13)));
   (68719476734, (25163, ("m"%string, 3, -32768, 16)));
   (68719476734, (25164, ("m"%string, 4, -5000, 13)));
   (68719345664, (25165, ("m"%string, 4, -32768, 16)));
   (68719345664, (25166, ("m"%string, 4, -32768, 16)));
   (68719345664, (25167, ("m"%string, 4, -120000, 18)));
   (68719476480, (25170, ("s"%string, 0, 0, 10)));
   (68719476480, (25171, ("s"%string, 0, 0, 10)));
   (68719476480, (25172, ("Numeric"%string, 0, 0, 10)));
   (536870910, (25174, ("FLAG TABLE"%string, 0, 0, 14)));
   (68182605824, (25174, ("Flag table"%string, 0, 0, 14)));
   (68719476480, (25175, ("Numeric"%string, 2, 0, 13)));
   (68719468544, (25180, ("%"%string, 2, 0, 16)));
   (536862720, (25181, ("CODE TABLE"%string, 0, 0, 2)));
   (68182605824, (25181, ("Code table"%string, 0, 0, 2)));
   (536862720, (25182, ("CODE TABLE"%string, 0, 0, 2)));
   (68182605824, (25182, ("Code table"%string, 0, 0, 2)));
   (68719468544, (25183, ("%"%string, 2, 0, 14)));
   (536862720, (25184, ("CODE TABLE"%string, 0, 0, 2)));
   (68182605824, (25184, ("Code table"%string, 0, 0, 2)));
   (534773760, (25185, ("CODE TABLE"%string, 0, 0, 8)));
   (68182605824, (25185, ("Code table"%string, 0, 0, 8)));
   (68717379584, (25186, ("CCITT IA5"%string, 0, 0, 96)));
   (535822336, (25187, ("CODE TABLE"%string, 0, 0, 4)));
   (68182605824, (25187, ("Code table"%string, 0, 0, 4)));
   (534773760, (25188, ("CODE TABLE"%string, 0, 0, 5)));
   (68182605824, (25188, ("Code table"%string, 0, 0, 5)));
   (68717379584, (25189, ("m"%string, 0, 1, 9)));
   (503316480, (25190, ("CODE TABLE"%string, 0, 0, 8)));
   (68182605824, (25190, ("Code table"%string, 0, 0, 8)));
   (503316480, (25191, ("CODE TABLE"%string, 0, 0, 8)));
   (68182605824, (25191, ("Code table"%string, 0, 0, 8)));
   (412316860416, (25192, ("CODE TABLE"%string, 0, 0, 4)));
   (618475290624, (25193, ("dB"%string, 3, 0, 14)));
   (618475290624, (25194, ("Numeric"%string, 0, 0, 4)));
   (618475290624, (25197, ("Numeric"%string, 0, 0, 5)));
   (618475290624, (25198, ("/m"%string, 8, 0, 30)));
   (618475290624, (25199, ("Numeric"%string, 4, -10000, 15)));
   (618475290624, (25200, ("Numeric"%string, 5, 0, 17)));
   (618475290624, (25201, ("Numeric"%string, 4, 0, 24)));
   (618475290624, (25202, ("Numeric"%string, 10, 0, 14)));
   (618475290624, (25203, ("FLAG TABLE"%string, 0, 0, 31)));
   (618475290624, (25204, ("FLAG TABLE"%string, 0, 0, 31)));
   (618475290624, (25205, ("FLAG TABLE"%string, 0, 0, 31)));
   (618475290624, (25206, ("FLAG TABLE"%string, 0, 0, 31)));
   (68719476736, (25207, ("deg"%string, 2, 0, 16)));
   (68719476735, (26001, ("h"%string, 1, 0, 12)));
   (68719476735, (26002, ("h"%string, 1, 0, 12)));
   (68719476735, (26003, ("min"%string, 0, -1440, 12)));
   (536870910, (26010, ("FLAG TABLE"%string, 0, 0, 26)));
   (68182605824, (26010, ("Flag table"%string, 0, 0, 26)));
   (68719476734, (26020, ("min"%string, 0, 0, 11)));
   (68719468544, (26021, ("a"%string, 0, 0, 12)));
   (68719468544, (26022, ("mon"%string, 0, 0, 4)));
   (68719468544, (26023, ("d"%string, 0, 0, 6)));
   (68719476480, (26030, ("s"%string, 2, 0, 8)));
   (618475290624, (26193, ("a"%string, 0, 0, 12)));
   (618475290624, (26194, ("mon"%string, 0, 0, 4)));
   (618475290624, (26195, ("d"%string, 0, 0, 6)));
   (618475290624, (26196, ("h"%string, 0, 0, 5)));
   (618475290624, (26197, ("min"%string, 0, 0, 6)));
   (618475290624, (26198, ("s"%string, 0, 0, 6)));
   (618475290624, (26200, ("Numeric"%string, 6, 0, 20)));
   (618475290624, (26201, ("FLAG TABLE"%string, 0, 0, 26)));
   (68719476735, (27001, ("deg"%string, 5, -9000000, 25)));
   (68719476735, (27002, ("deg"%string, 2, -9000, 15)));
   (68719476735, (27003, ("deg"%string, 2, -9000, 15)));
   (68719476734, (27004, ("deg"%string, 5, -9000000, 25)));
   (68719476734, (27010, ("m"%string, -1, 0, 14)));
   (68719476735, (27020, ("Numeric"%string, 0, 0, 16)));
   (68719476735, (27021, ("Numeric"%string, 0, 0, 16)));
   (68719476735, (27031, ("m"%string, 2, -1073741824, 31)));
   (68715282432, (27079, ("m"%string, 0, 0, 18)));
   (536870910, (27080, ("deg"%string, 2, 0, 16)));
   (68182605824, (27080, ("degree true"%string, 2, 0, 16)));
   (618475290624, (27193, ("deg"%string, 2, 0, 16)));
   (68719476735, (28001, ("deg"%string, 5, -18000000, 26)));
   (68719476735, (28002, ("deg"%string, 2, -18000, 16)));
   (68719476735, (28003, ("deg"%string, 2, -18000, 16)));
   (68719476734, (28004, ("deg"%string, 5, -18000000, 26)));
   (68719476734, (28010, ("m"%string, -1, 0, 14)));
   (68719476735, (28031, ("m"%string, 2, -1073741824, 31)));
   (536870911, (29001, ("CODE TABLE"%string, 0, 0, 3)));
   (68182605824, (29001, ("Code table"%string, 0, 0, 3)));
   (536870911, (29002, ("CODE TABLE"%string, 0, 0, 3)));
   (68182605824, (29002, ("Code table"%string, 0, 0, 3)));
   (68717379584, (29014, ("CCITT IA5"%string, 0, 0, 504)));
   (68719476735, (30001, ("Numeric"%string, 0, 0, 4)));
   (68719476735, (30002, ("Numeric"%string, 0, 0, 8)));
   (68719476735, (30004, ("Numeric"%string, 0, 0, 16)));
   (68719476734, (30010, ("Numeric"%string, 0, 0, 13)));
   (68719476735, (30021, ("Numeric"%string, 0, 0, 12)));
   (68719476735, (30022, ("Numeric"%string, 0, 0, 12)));
   (536870911, (30031, ("CODE TABLE"%string, 0, 0, 4)));
   (68182605824, (30031, ("Code table"%string, 0, 0, 4)));
   (536870911, (30032, ("FLAG TABLE"%string, 0, 0, 16)));
   (68182605824, (30032, ("Flag table"%string, 0, 0, 16)));
   (68719476480, (30033, ("Numeric"%string, 0, 0, 12)));
   (68719476480, (30034, ("Numeric"%string, 0, 0, 12)));
   (618475290624, (30193, ("Numeric"%string, 0, 0, 8)));
   (68719476735, (31000, ("Numeric"%string, 0, 0, 1)));
   (68719476735, (31001, ("Numeric"%string, 0, 0, 8)));
   (68719476735, (31002, ("Numeric"%string, 0, 0, 16)));
   (68719476735, (31011, ("Numeric"%string, 0, 0, 8)));
   (68719476735, (31012, ("Numeric"%string, 0, 0, 16)));
   (536870911, (31021, ("CODE TABLE"%string, 0, 0, 6)));
   (68182605824, (31021, ("Code table"%string, 0, 0, 6)));
   (536870911, (31031, ("FLAG TABLE"%string, 0, 0, 1)));
   (68182605824, (31031, ("Flag table"%string, 0, 0, 1)));
   (618475290624, (31192, ("Numeric"%string, 0, 0, 1)));
   (536870911, (33002, ("CODE TABLE"%string, 0, 0, 2)));
   (68182605824, (33002, ("Code table"%string, 0, 0, 2)));
   (536870911, (33003, ("CODE TABLE"%string, 0, 0, 3)));
   (68182605824, (33003, ("Code table"%string, 0, 0, 3)));
   (536870910, (33005, ("FLAG TABLE"%string, 0, 0, 30)));
   (68182605824, (33005, ("Flag table"%string, 0, 0, 30)));
   (536870910, (33006, ("CODE TABLE"%string, 0, 0, 3)));
   (68182605824, (33006, ("Code table"%string, 0, 0, 3)));
   (68719476735, (33007, ("%"%string, 0, 0, 7)));
   (7168, (33009, ("%"%string, 2, 0, 14)));
   (1022, (33009, ("%"%string, 6, 0, 20)));
   (536870910, (33015, ("CODE TABLE"%string, 0, 0, 6)));
   (68182605824, (33015, ("Code table"%string, 0, 0, 6)));
   (536870911, (33020, ("CODE TABLE"%string, 0, 0, 3)));
   (68182605824, (33020, ("Code table"%string, 0, 0, 3)));
   (536870911, (33021, ("CODE TABLE"%string, 0, 0, 2)));
   (68182605824, (33021, ("Code table"%string, 0, 0, 2)));
   (536870911, (33022, ("CODE TABLE"%string, 0, 0, 2)));
   (68182605824, (33022, ("Code table"%string, 0, 0, 2)));
   (536870911, (33023, ("CODE TABLE"%string, 0, 0, 2)));
   (68182605824, (33023, ("Code table"%string, 0, 0, 2)));
   (1, (33024, ("CODE TABLE"%string, 0, 0, 2)));
   (536870910, (33024, ("CODE TABLE"%string, 0, 0, 4)));
   (68182605824, (33024, ("Code table"%string, 0, 0, 4)));
   (536870911, (33025, ("CODE TABLE"%string, 0, 0, 3)));
   (68182605824, (33025, ("Code table"%string, 0, 0, 3)));
   (536870911, (33026, ("CODE TABLE"%string, 0, 0, 6)));
   (68182605824, (33026, ("Code table"%string, 0, 0, 6)));
   (536870911, (33027, ("CODE TABLE"%string, 0, 0, 3)));
   (68182605824, (33027, ("Code table"%string, 0, 0, 3)));
   (536870910, (33028, ("CODE TABLE"%string, 0, 0, 3)));
   (68182605824, (33028, ("Code table"%string, 0, 0, 3)));
   (536870911, (33030, ("FLAG TABLE"%string, 0, 0, 24)));
   (68182605824, (33030, ("Flag table"%string, 0, 0, 24)));
   (536870911, (33031, ("FLAG TABLE"%string, 0, 0, 24)));
   (68182605824, (33031, ("Flag table"%string, 0, 0, 24)));
   (536870911, (33032, ("FLAG TABLE"%string, 0, 0, 24)));
   (68182605824, (33032, ("Flag table"%string, 0, 0, 24)));
   (536870911, (33033, ("FLAG TABLE"%string, 0, 0, 24)));
   (68182605824, (33033, ("Flag table"%string, 0, 0, 24)));
   (536870910, (33035, ("CODE TABLE"%string, 0, 0, 4)));
   (68182605824, (33035, ("Code table"%string, 0, 0, 4)));
   (68719476734, (33036, ("%"%string, 0, 0, 7)));
   (536870910, (33037, ("FLAG TABLE"%string, 0, 0, 20)));
   (68182605824, (33037, ("Flag table"%string, 0, 0, 20)));
   (536870910, (33038, ("FLAG TABLE"%string, 0, 0, 10)));
   (68182605824, (33038, ("Flag table"%string, 0, 0, 10)));
   (536870910, (33039, ("FLAG TABLE"%string, 0, 0, 16)));
   (68182605824, (33039, ("Flag table"%string, 0, 0, 16)));
   (68719476734, (33040, ("%"%string, 0, 0, 7)));
   (536870910, (33041, ("CODE TABLE"%string, 0, 0, 2)));
   (68182605824, (33041, ("Code table"%string, 0, 0, 2)));
   (536870910, (33042, ("CODE TABLE"%string, 0, 0, 3)));
   (68182605824, (33042, ("Code table"%string, 0, 0, 3)));
   (536870910, (33043, ("FLAG TABLE"%string, 0, 0, 8)));
   (68182605824, (33043, ("Flag table"%string, 0, 0, 8)));
   (536870910, (33044, ("FLAG TABLE"%string, 0, 0, 15)));
   (68182605824, (33044, ("Flag table"%string, 0, 0, 15)));
   (68719476734, (33045, ("%"%string, 0, 0, 7)));
   (68719476734, (33046, ("%"%string, 0, 0, 7)));
   (536870910, (33047, ("FLAG TABLE"%string, 0, 0, 31)));
   (68182605824, (33047, ("Flag table"%string, 0, 0, 31)));
   (536870910, (33048, ("CODE TABLE"%string, 0, 0, 2)));
   (68182605824, (33048, ("Code table"%string, 0, 0, 2)));
   (536870910, (33049, ("CODE TABLE"%string, 0, 0, 2)));
   (68182605824, (33049, ("Code table"%string, 0, 0, 2)));
   (536870910, (33050, ("CODE TABLE"%string, 0, 0, 4)));
   (68182605824, (33050, ("Code table"%string, 0, 0, 4)));
   (536870910, (33052, ("FLAG TABLE"%string, 0, 0, 21)));
   (68182605824, (33052, ("Flag table"%string, 0, 0, 21)));
   (536870910, (33053, ("FLAG TABLE"%string, 0, 0, 21)));
   (68182605824, (33053, ("Flag table"%string, 0, 0, 21)));
   (549755813888, (33054, ("CODE TABLE"%string, 0, 0, 3)));
   (34359738368, (33054, ("Code table"%string, 0, 0, 3)));
   (68182605824, (33055, ("Flag table"%string, 0, 0, 24)));
   (68182605824, (33056, ("Flag table"%string, 0, 0, 24)));
   (536870910, (33060, ("CODE TABLE"%string, 0, 0, 2)));
   (68182605824, (33060, ("Code table"%string, 0, 0, 2)));
   (68719476734, (33061, ("%"%string, 0, 0, 7)));
   (68719476734, (33062, ("%"%string, 0, 0, 7)));
   (68719476734, (33063, ("%"%string, 0, 0, 7)));
   (68719476734, (33064, ("%"%string, 0, 0, 7)));
   (68719476734, (33065, ("Numeric"%string, 0, 0, 24)));
   (1022, (33066, ("CODE TABLE"%string, 0, 0, 4)));
   (528482304, (33066, ("FLAG TABLE"%string, 0, 0, 24)));
   (68182605824, (33066, ("Flag table"%string, 0, 0, 24)));
   (1022, (33067, ("CODE TABLE"%string, 0, 0, 4)));
   (536870910, (33070, ("CODE TABLE"%string, 0, 0, 4)));
   (68182605824, (33070, ("Code table"%string, 0, 0, 4)));
   (536870910, (33071, ("CODE TABLE"%string, 0, 0, 4)));
   (68182605824, (33071, ("Code table"%string, 0, 0, 4)));
   (536870656, (33072, ("CODE TABLE"%string, 0, 0, 5)));
   (68182605824, (33072, ("Code table"%string, 0, 0, 5)));
   (536870656, (33075, ("FLAG TABLE"%string, 0, 0, 13)));
   (68182605824, (33075, ("Flag table"%string, 0, 0, 13)));
   (536870656, (33076, ("FLAG TABLE"%string, 0, 0, 9)));
   (68182605824, (33076, ("Flag table"%string, 0, 0, 9)));
   (536870656, (33077, ("FLAG TABLE"%string, 0, 0, 19)));
   (68182605824, (33077, ("Flag table"%string, 0, 0, 19)));
   (536870656, (33078, ("CODE TABLE"%string, 0, 0, 4)));
   (68182605824, (33078, ("Code table"%string, 0, 0, 4)));
   (536870656, (33079, ("FLAG TABLE"%string, 0, 0, 16)));
   (68182605824, (33079, ("Flag table"%string, 0, 0, 16)));
   (536870656, (33080, ("FLAG TABLE"%string, 0, 0, 20)));
   (68182605824, (33080, ("Flag table"%string, 0, 0, 20)));
   (536870656, (33081, ("FLAG TABLE"%string, 0, 0, 12)));
   (68182605824, (33081, ("Flag table"%string, 0, 0, 12)));
   (536870400, (33082, ("FLAG TABLE"%string, 0, 0, 16)));
   (68182605824, (33082, ("Flag table"%string, 0, 0, 16)));
   (536870400, (33083, ("FLAG TABLE"%string, 0, 0, 16)));
   (68182605824, (33083, ("Flag table"%string, 0, 0, 16)));
   (536866816, (33084, ("FLAG TABLE"%string, 0, 0, 16)));
   (68182605824, (33084, ("Flag table"%string, 0, 0, 16)));
   (536838144, (33085, ("FLAG TABLE"%string, 0, 0, 18)));
   (68182605824, (33085, ("Flag table"%string, 0, 0, 18)));
   (536866816, (33086, ("CODE TABLE"%string, 0, 0, 3)));
   (68182605824, (33086, ("Code table"%string, 0, 0, 3)));
   (536838144, (33087, ("CODE TABLE"%string, 0, 0, 4)));
   (68182605824, (33087, ("Code table"%string, 0, 0, 4)));
   (536838144, (33088, ("FLAG TABLE"%string, 0, 0, 18)));
   (68182605824, (33088, ("Flag table"%string, 0, 0, 18)));
   (68718952448, (33089, ("K"%string, 2, 0, 12)));
   (68718952448, (33090, ("K"%string, 2, 0, 12)));
   (68718952448, (33091, ("K"%string, 2, 0, 12)));
   (503316480, (33092, ("FLAG TABLE"%string, 0, 0, 9)));
   (68182605824, (33092, ("Flag table"%string, 0, 0, 9)));
   (67645734912, (33093, ("Flag table"%string, 0, 0, 31)));
   (60129542144, (33094, ("Flag table"%string, 0, 0, 24)));
   (51539607552, (33095, ("Flag table"%string, 0, 0, 8)));
   (51539607552, (33096, ("Flag table"%string, 0, 0, 16)));
   (51539607552, (33097, ("Flag table"%string, 0, 0, 16)));
   (51539607552, (33098, ("Flag table"%string, 0, 0, 9)));
   (51539607552, (33099, ("Flag table"%string, 0, 0, 16)));
   (51539607552, (33100, ("Flag table"%string, 0, 0, 8)));
   (51539607552, (33101, ("Flag table"%string, 0, 0, 16)));
   (51539607552, (33102, ("Flag table"%string, 0, 0, 16)));
   (51539607552, (33103, ("Flag table"%string, 0, 0, 9)));
   (51539607552, (33104, ("Flag table"%string, 0, 0, 16)));
   (51539607552, (33105, ("Flag table"%string, 0, 0, 16)));
   (51539607552, (33106, ("Flag table"%string, 0, 0, 16)));
   (51539607552, (33107, ("Flag table"%string, 0, 0, 16)));
   (51539607552, (33108, ("Flag table"%string, 0, 0, 16)));
   (51539607552, (33109, ("Flag table"%string, 0, 0, 16)));
   (51539607552, (33110, ("Flag table"%string, 0, 0, 9)));
   (51539607552, (33111, ("Flag table"%string, 0, 0, 32)));
   (51539607552, (33112, ("deg"%string, 2, -18000, 16)));
   (51539607552, (33113, ("Flag table"%string, 0, 0, 16)));
   (51539607552, (33114, ("Flag table"%string, 0, 0, 17)));
   (51539607552, (33115, ("Code table"%string, 0, 0, 5)));
   (34359738368, (33116, ("Flag table"%string, 0, 0, 17)));
   (34359738368, (33117, ("Flag table"%string, 0, 0, 17)));
   (34359738368, (33118, ("%"%string, 2, -10000, 15)));
   (34359738368, (33119, ("%"%string, 0, -100, 8)));
   (525057, (33191, ("CODE TABLE"%string, 0, 0, 2)));
   (618475290624, (33192, ("%"%string, 0, 0, 7)));
   (274877906944, (33192, ("FLAG TABLE"%string, 0, 0, 10)));
   (893353197568, (33193, ("CODE TABLE"%string, 0, 0, 3)));
   (618475290624, (33194, ("CODE TABLE"%string, 0, 0, 2)));
   (274877906944, (33194, ("CODE TABLE"%string, 0, 0, 3)));
   (274877906944, (33195, ("CODE TABLE"%string, 0, 0, 4)));
   (618475290624, (33195, ("CODE TABLE"%string, 0, 0, 5)));
   (618475290624, (33196, ("CODE TABLE"%string, 0, 0, 2)));
   (274877906944, (33196, ("FLAG TABLE"%string, 0, 0, 11)));
   (893353197568, (33197, ("CODE TABLE"%string, 0, 0, 3)));
   (618475290624, (33198, ("Numeric"%string, 4, 0, 14)));
   (618475290624, (33199, ("kg m-2"%string, 2, 0, 11)));
   (618475290624, (33200, ("FLAG TABLE"%string, 0, 0, 31)));
   (618475290624, (33201, ("FLAG TABLE"%string, 0, 0, 13)));
   (618475290624, (33202, ("FLAG TABLE"%string, 0, 0, 31)));
   (618475290624, (33203, ("FLAG TABLE"%string, 0, 0, 11)));
   (618475290624, (33204, ("FLAG TABLE"%string, 0, 0, 21)));
   (618475290624, (33205, ("CODE TABLE"%string, 0, 0, 4)));
   (618475290624, (33206, ("CODE TABLE"%string, 0, 0, 4)));
   (618475290624, (33207, ("CODE TABLE"%string, 0, 0, 4)));
   (618475290624, (33208, ("CODE TABLE"%string, 0, 0, 4)));
   (618475290624, (33209, ("CODE TABLE"%string, 0, 0, 4)));
   (618475290624, (33210, ("Numeric"%string, 0, 0, 7)));
   (618475290624, (33211, ("Numeric"%string, 0, 0, 10)));
   (618475290624, (33212, ("Numeric"%string, 0, 0, 10)));
   (618475290624, (33213, ("Numeric"%string, 1, -1000, 11)));
   (618475290624, (33214, ("FLAG TABLE"%string, 0, 0, 11)));
   (618475290624, (33215, ("Numeric"%string, 1, -4096, 13)));
   (618475290624, (33216, ("CODE TABLE"%string, 0, 0, 3)));
   (618475290624, (33217, ("CODE TABLE"%string, 0, 0, 2)));
   (618475290624, (33218, ("Numeric"%string, 2, 0, 12)));
   (618475290624, (33219, ("Numeric"%string, 2, -50000, 16)));
   (618475290624, (33220, ("FLAG TABLE"%string, 0, 0, 31)));
   (618475290624, (33221, ("FLAG TABLE"%string, 0, 0, 31)));
   (618475290624, (33222, ("FLAG TABLE"%string, 0, 0, 31)));
   (618475290624, (33223, ("FLAG TABLE"%string, 0, 0, 31)));
   (618475290624, (33224, ("FLAG TABLE"%string, 0, 0, 31)));
   (618475290624, (33225, ("FLAG TABLE"%string, 0, 0, 31)));
   (618475290624, (33226, ("FLAG TABLE"%string, 0, 0, 31)));
   (618475290624, (33227, ("FLAG TABLE"%string, 0, 0, 31)));
   (618475290624, (33228, ("FLAG TABLE"%string, 0, 0, 31)));
   (618475290624, (33229, ("FLAG TABLE"%string, 0, 0, 31)));
   (618475290624, (33230, ("FLAG TABLE"%string, 0, 0, 31)));
   (618475290624, (33231, ("FLAG TABLE"%string, 0, 0, 6)));
   (618475290624, (33232, ("FLAG TABLE"%string, 0, 0, 31)));
   (618475290624, (33233, ("FLAG TABLE"%string, 0, 0, 31)));
   (618475290624, (33234, ("FLAG TABLE"%string, 0, 0, 31)));
   (618475290624, (33236, ("FLAG TABLE"%string, 0, 0, 31)));
   (618475290624, (33237, ("FLAG TABLE"%string, 0, 0, 31)));
   (618475290624, (33238, ("FLAG TABLE"%string, 0, 0, 31)));
   (618475290624, (33239, ("FLAG TABLE"%string, 0, 0, 31)));
   (618475290624, (33240, ("FLAG TABLE"%string, 0, 0, 31)));
   (618475290624, (33241, ("Numeric"%string, 3, 0, 10)));
   (618475290624, (33242, ("CODE TABLE"%string, 0, 0, 2)));
   (618475290624, (33243, ("FLAG TABLE"%string, 0, 0, 31)));
   (618475290624, (33244, ("FLAG TABLE"%string, 0, 0, 31)));
   (618475290624, (33245, ("FLAG TABLE"%string, 0, 0, 31)));
   (618475290624, (33246, ("FLAG TABLE"%string, 0, 0, 31)));
   (618475290624, (33247, ("FLAG TABLE"%string, 0, 0, 31)));
   (618475290624, (33248, ("FLAG TABLE"%string, 0, 0, 31)));
   (618475290624, (33249, ("FLAG TABLE"%string, 0, 0, 31)));
   (618475290624, (33250, ("Numeric"%string, 6, 0, 20)));
   (618475290624, (33251, ("Numeric"%string, 2, 0, 14)));
   (618475290624, (33252, ("CODE TABLE"%string, 0, 0, 4)));
   (618475290624, (33253, ("%"%string, 0, 0, 7)));
   (618475290624, (33254, ("FLAG TABLE"%string, 0, 0, 20)));
   (536870910, (35000, ("CODE TABLE"%string, 0, 0, 10)));
   (68182605824, (35000, ("Code table"%string, 0, 0, 10)));
   (536870910, (35001, ("CODE TABLE"%string, 0, 0, 3)));
   (68182605824, (35001, ("Code table"%string, 0, 0, 3)));
   (68719476734, (35011, ("Numeric"%string, 0, 0, 14)));
   (68719476734, (35021, ("CCITT IA5"%string, 0, 0, 48)));
   (68719476734, (35022, ("CCITT IA5"%string, 0, 0, 48)));
   (68719476734, (35023, ("CCITT IA5"%string, 0, 0, 32)));
   (68719476734, (35024, ("CCITT IA5"%string, 0, 0, 24)));
   (536870910, (35030, ("CODE TABLE"%string, 0, 0, 4)));
   (68182605824, (35030, ("Code table"%string, 0, 0, 4)));
   (536870910, (35031, ("CODE TABLE"%string, 0, 0, 7)));
   (68182605824, (35031, ("Code table"%string, 0, 0, 7)));
   (536870910, (35032, ("CODE TABLE"%string, 0, 0, 4)));
   (68182605824, (35032, ("Code table"%string, 0, 0, 4)));
   (536870910, (35033, ("CODE TABLE"%string, 0, 0, 7)));
   (68182605824, (35033, ("Code table"%string, 0, 0, 7)));
   (536870910, (35034, ("CODE TABLE"%string, 0, 0, 3)));
   (68182605824, (35034, ("Code table"%string, 0, 0, 3)));
   (536870910, (35035, ("CODE TABLE"%string, 0, 0, 5)));
   (68182605824, (35035, ("Code table"%string, 0, 0, 5)));
   (68719476734, (40001, ("%"%string, 1, 0, 10)));
   (68719476734, (40002, ("%"%string, 1, 0, 10)));
   (68719476734, (40003, ("Numeric"%string, 3, 0, 10)));
   (68719476734, (40004, ("Numeric"%string, 3, 0, 10)));
   (536870910, (40005, ("FLAG TABLE"%string, 0, 0, 8)));
   (68182605824, (40005, ("Flag table"%string, 0, 0, 8)));
   (536870910, (40006, ("FLAG TABLE"%string, 0, 0, 16)));
   (68182605824, (40006, ("Flag table"%string, 0, 0, 16)));
   (68719476734, (40007, ("%"%string, 1, 0, 10)));
   (68719476734, (40008, ("%"%string, 1, 0, 10)));
   (68719476734, (40009, ("%"%string, 1, 0, 10)));
   (68719476734, (40010, ("%"%string, 1, 0, 10)));
   (536870910, (40011, ("FLAG TABLE"%string, 0, 0, 8)));
   (68182605824, (40011, ("Flag table"%string, 0, 0, 8)));
   (536870910, (40012, ("FLAG TABLE"%string, 0, 0, 8)));
   (68182605824, (40012, ("Flag table"%string, 0, 0, 8)));
   (536870910, (40013, ("CODE TABLE"%string, 0, 0, 3)));
   (68182605824, (40013, ("Code table"%string, 0, 0, 3)));
   (68719476734, (40014, ("m"%string, 4, -3000, 13)));
   (68719475712, (40015, ("Numeric"%string, 2, -100, 8)));
   (768, (40015, ("Numeric"%string, 2, 0, 16)));
   (68719476480, (40016, ("Numeric"%string, 3, 0, 14)));
   (68719476480, (40017, ("Numeric"%string, 0, -1073741824, 31)));
   (68719476734, (40018, ("W m-2 sr-1 m"%string, 6, 0, 24)));
   (68719476734, (40019, ("W m-2 sr-1 m"%string, 6, 0, 24)));
   (536870910, (40020, ("FLAG TABLE"%string, 0, 0, 17)));
   (68182605824, (40020, ("Flag table"%string, 0, 0, 17)));
   (68719476734, (40021, ("%"%string, 0, 0, 7)));
   (68719476734, (40022, ("Numeric"%string, 0, 0, 7)));
   (536870656, (40023, ("FLAG TABLE"%string, 0, 0, 5)));
   (68182605824, (40023, ("Flag table"%string, 0, 0, 5)));
   (536870656, (40024, ("CODE TABLE"%string, 0, 0, 3)));
   (68182605824, (40024, ("Code table"%string, 0, 0, 3)));
   (536870656, (40025, ("CODE TABLE"%string, 0, 0, 2)));
   (68182605824, (40025, ("Code table"%string, 0, 0, 2)));
   (68719476224, (40026, ("Numeric"%string, 2, 0, 16)));
   (68718952448, (40027, ("deg"%string, 2, -18000, 16)));
   (536346624, (40028, ("CODE TABLE"%string, 0, 0, 4)));
   (68182605824, (40028, ("Code table"%string, 0, 0, 4)));
   (68718428160, (40029, ("m"%string, 0, 0, 26)));
   (68718428160, (40030, ("m/s"%string, 2, -32767, 16)));
   (68718428160, (40031, ("m/s"%string, 2, 0, 15)));
   (68718428160, (40032, ("m s-1 Pa-1"%string, 3, -100000, 18)));
   (68718428160, (40033, ("m s-1 K-1"%string, 3, -100000, 18)));
   (68718428160, (40034, ("m/s"%string, 3, -200000, 19)));
   (68718428160, (40035, ("m"%string, 0, 380000, 18)));
   (535822336, (40036, ("CODE TABLE"%string, 0, 0, 4)));
   (68182605824, (40036, ("Code table"%string, 0, 0, 4)));
   (68718428160, (40037, ("Numeric"%string, 3, 500, 20)));
   (68711088128, (40038, ("m"%string, 7, 0, 28)));
   (68717379584, (40039, ("Numeric"%string, 0, -25, 5)));
   (68717379584, (40040, ("Numeric"%string, 2, 1, 13)));
   (68717379584, (40041, ("Numeric"%string, 2, 1, 13)));
   (68717379584, (40042, ("Numeric"%string, 2, 1, 13)));
   (503316480, (40043, ("CODE TABLE"%string, 0, 0, 3)));
   (68182605824, (40043, ("Code table"%string, 0, 0, 3)));
   (68685922304, (40044, ("Numeric"%string, 1, 0, 8)));
   (503316480, (40045, ("FLAG TABLE"%string, 0, 0, 5)));
   (68182605824, (40045, ("Flag table"%string, 0, 0, 5)));
   (503316480, (40046, ("CODE TABLE"%string, 0, 0, 3)));
   (68182605824, (40046, ("Code table"%string, 0, 0, 3)));
   (503316480, (40047, ("CODE TABLE"%string, 0, 0, 3)));
   (68182605824, (40047, ("Code table"%string, 0, 0, 3)));
   (503316480, (40048, ("CODE TABLE"%string, 0, 0, 3)));
   (68182605824, (40048, ("Code table"%string, 0, 0, 3)));
   (503316480, (40049, ("FLAG TABLE"%string, 0, 0, 16)));
   (68182605824, (40049, ("Flag table"%string, 0, 0, 16)));
   (503316480, (40050, ("FLAG TABLE"%string, 0, 0, 8)));
   (68182605824, (40050, ("Flag table"%string, 0, 0, 8)));
   (503316480, (40051, ("CODE TABLE"%string, 0, 0, 3)));
   (68182605824, (40051, ("Code table"%string, 0, 0, 3)));
   (503316480, (40052, ("FLAG TABLE"%string, 0, 0, 8)));
   (68182605824, (40052, ("Flag table"%string, 0, 0, 8)));
   (68685922304, (40053, ("Numeric"%string, 0, 0, 8)));
   (503316480, (40054, ("FLAG TABLE"%string, 0, 0, 13)));
   (68182605824, (40054, ("Flag table"%string, 0, 0, 13)));
   (503316480, (40055, ("FLAG TABLE"%string, 0, 0, 21)));
   (68182605824, (40055, ("Flag table"%string, 0, 0, 21)));
   (503316480, (40056, ("CODE TABLE"%string, 0, 0, 3)));
   (68182605824, (40056, ("Code table "%string, 0, 0, 3)));
   (503316480, (40057, ("FLAG TABLE"%string, 0, 0, 31)));
   (68182605824, (40057, ("Flag table"%string, 0, 0, 31)));
   (68685922304, (40058, ("Numeric"%string, 0, 0, 8)));
   (68685922304, (40059, ("Numeric"%string, 0, 0, 8)));
   (68685922304, (40060, ("Numeric"%string, 0, 0, 8)));
   (68685922304, (40061, ("mol cm-2"%string, 3, 0, 16)));
   (68685922304, (40062, ("mol cm-2"%string, 10, 0, 16)));
   (68685922304, (40063, ("Numeric"%string, 5, 0, 26)));
   (68685922304, (40064, ("Numeric"%string, 6, 0, 31)));
   (68685922304, (40065, ("Numeric"%string, 6, -1000000000, 31)));
   (68685922304, (40066, ("Numeric"%string, 1, 0, 8)));
   (68685922304, (40067, ("Numeric"%string, 1, 0, 8)));
   (503316480, (40068, ("CODE TABLE"%string, 0, 0, 4)));
   (68182605824, (40068, ("Code table"%string, 0, 0, 4)));
   (68685922304, (40069, ("K"%string, 4, -1000000, 21)));
   (68685922304, (40070, ("K"%string, 4, -1000000, 21)));
   (68685922304, (40071, ("Numeric"%string, 4, -1000000, 21)));
   (68685922304, (40072, ("Numeric"%string, 1, 0, 8)));
   (68685922304, (40073, ("K"%string, 1, 0, 8)));
   (68182605824, (40074, ("Flag table"%string, 0, 0, 16)));
   (34359738368, (40075, ("Numeric"%string, 0, 0, 21)));
   (34359738368, (40076, ("Numeric"%string, 0, 0, 21)));
   (34359738368, (40080, ("Flag table"%string, 0, 0, 5)));
   (68719476736, (40192, ("FLAG TABLE"%string, 0, 0, 16)));
   (68719476736, (40193, ("FLAG TABLE"%string, 0, 0, 16)));
   (68719476736, (40194, ("FLAG TABLE"%string, 0, 0, 16)));
   (68719476736, (40195, ("CODE TABLE"%string, 0, 0, 4)));
   (68719476736, (40196, ("FLAG TABLE"%string, 0, 0, 8)));
   (68719476736, (40197, ("CODE TABLE"%string, 0, 0, 3)));
   (68719476736, (40198, ("CODE TABLE"%string, 0, 0, 3)));
   (68719476736, (40199, ("kg m-2"%string, 6, 0, 16)));
   (68719476736, (40200, ("kg m-2"%string, 7, 0, 16)));
   (68719476736, (40201, ("kg m-2"%string, 6, 0, 16)));
   (68719476736, (40202, ("kg m-2"%string, 3, 0, 16)));
   (68719476736, (40203, ("FLAG TABLE"%string, 0, 0, 12)));
   (68719476736, (40210, ("FLAG TABLE"%string, 0, 0, 25)));
   (68719476736, (40211, ("FLAG TABLE"%string, 0, 0, 15)));
   (68719476736, (40213, ("deg"%string, 2, -18000, 16)));
   (412316860416, (40214, ("CODE TABLE"%string, 0, 0, 4)));
   (412316860416, (40215, ("m"%string, 0, 380000, 18)));
   (412316860416, (40216, ("m"%string, 0, 0, 26)));
   (412316860416, (40217, ("m/s"%string, 2, -32767, 16)));
   (412316860416, (40218, ("m/s"%string, 2, 0, 15)));
   (412316860416, (40219, ("Numeric"%string, 3, 500, 20)));
   (412316860416, (40220, ("m s-1 Pa-1"%string, 3, -100000, 18)));
   (412316860416, (40221, ("m s-1 K-1"%string, 3, -100000, 18)));
   (412316860416, (40222, ("m/s"%string, 3, -200000, 19)));
   (68717379584, (41001, ("Pa"%string, 3, 0, 18)));
   (68717379584, (41002, ("kg l-1"%string, 12, 0, 16)));
   (68182605824, (41003, ("umol kg-1"%string, 3, 0, 17)));
   (534773760, (41003, ("umol/kg"%string, 3, 0, 17)));
   (34359738368, (41004, ("mg m-3"%string, 4, 0, 19)));
   (68717379584, (41005, ("NTU"%string, 2, 0, 12)));
   (34359738368, (41006, ("Numeric"%string, 4, 70000, 15)));
   (34359738368, (41007, ("m-1"%string, 7, 0, 20)));
   (68717379584, (42001, ("deg"%string, 0, 0, 9)));
   (68717379584, (42002, ("m"%string, 1, 0, 9)));
   (68717379584, (42003, ("m"%string, 2, 100, 17)));
   (534773760, (42004, ("CODE TABLE"%string, 0, 0, 4)));
   (68182605824, (42004, ("Code table"%string, 0, 0, 4)));
   (68717379584, (42005, ("Numeric"%string, 5, -100000, 18)));
   (68717379584, (42006, ("Numeric"%string, 2, 1, 8)));
   (68717379584, (42007, ("m"%string, 2, 0, 16)));
   (68717379584, (42008, ("m"%string, 2, 0, 16)));
   (68717379584, (42009, ("Numeric"%string, 0, 0, 8)));
   (68717379584, (42010, ("Numeric"%string, 0, 1, 4)));
   (68585259008, (42011, ("Numeric"%string, 4, -20000, 15)));
   (68585259008, (42012, ("Numeric"%string, 4, -20000, 15)));
   (68585259008, (42013, ("Numeric"%string, 4, -20000, 15)));
   (68585259008, (42014, ("Numeric"%string, 4, -20000, 15)));
   (68585259008, (42015, ("Numeric"%string, 2, 0, 12)));
   (51539607552, (42016, ("kg m-3"%string, 5, -10000000, 24)));
   (618475290624, (49193, ("FLAG TABLE"%string, 0, 0, 15)));
   (618475290624, (49194, ("FLAG TABLE"%string, 0, 0, 15)));
   (68719476736, (55003, ("FLAG TABLE"%string, 0, 0, 8)));
   (618475290624, (62190, ("CODE TABLE"%string, 0, 0, 8)));
   (618475290624, (62191, ("CODE TABLE"%string, 0, 0, 8)));
   (618475290624, (63190, ("CODE TABLE"%string, 0, 0, 8)))].

(** Rows of Table D: identifier, members. *)
Definition d_rows : list (Z * (Z * list Z)) :=
  [(68719476735, (300002, [2; 3]));
   (68719476735, (300003, [10; 11; 12]));
   (68719476735, (300004, [300003; 13; 14; 15; 16; 17; 18; 19; 20]));
   (68719476735, (300010, [300003; 101000; 31001; 30]));
   (68719476224, (300015, [30; 102000; 31002; 24; 25]));
   (68719476224, (300016, [30; 102000; 31001; 26; 27]));
   (68719476735, (301001, [1001; 1002]));
   (68719476735, (301002, [1003; 1004; 1005]));
   (68719476735, (301003, [1011; 1012; 1013]));
   (68719476734, (301004, [1001; 1002; 1015; 2001]));
   (68719476734, (301005, [1035; 1034]));
   (68719476735, (301011, [4001; 4002; 4003]));
   (68719476735, (301012, [4004; 4005]));
   (68719476735, (301013, [4004; 4005; 4006]));
   (68719476734, (301014, [102002; 301011; 301012]));
   (68717379584, (301018, [1114; 25185; 25186]));
   (68719476735, (301021, [5001; 6001]));
   (68719476735, (301022, [5001; 6001; 7001]));
   (68719476735, (301023, [5002; 6002]));
   (68719476735, (301024, [5002; 6002; 7001]));
   (68719476735, (301025, [301023; 4003; 301012]));
   (68719476735, (301026, [301021; 4003; 4003; 4004; 4004; 4005; 4005]));
   (68719476734, (301027, [8007; 101000; 31001; 301028; 8007]));
   (68719476734, (301028, [8040; 33042; 7010; 101000; 31002; 301023; 19007; 8040]));
   (68719468545, (301029, [1018; 2001; 301011]));
   (68719468545, (301030, [1018; 2001; 301011; 301024]));
   (68719476735, (301031, [301001; 2001; 301011; 301012; 301022]));
   (68719476735, (301032, [301001; 2001; 301011; 301012; 301024]));
   (68719476735, (301033, [1005; 2001; 301011; 301012; 301021]));
   (68719476735, (301034, [1005; 2001; 301011; 301012; 301023]));
   (68719476735, (301035, [1005; 1012; 1013; 2001; 301011; 301012; 301023]));
   (68719476735, (301036, [301003; 2001; 301011; 301012; 301023]));
   (68719476735, (301037, [301001; 2011; 2012; 301011; 301012; 301022]));
   (68719476735, (301038, [301001; 2011; 2012; 301011; 301012; 301024]));
   (68719476735, (301039, [301003; 2011; 2012; 301011; 301012; 301023]));
   (68719476735, (301040, [301003; 2011; 2012; 301011; 301012; 301024]));
   (68719476735, (301041, [1007; 2021; 2022; 301011; 301012]));
   (68719476735, (301042, [301041; 301021]));
   (68719476735, (301043, [1007; 2023; 301011; 301013; 301021]));
   (68719476735, (301044, [1007; 2024; 301011; 301013; 301021]));
   (68719476735, (301045, [301011; 301012; 201138; 202131; 4006; 201000; 202000; 304030; 304031]));
   (68719476735, (301046, [1007; 1012; 2048; 21119; 25060; 202124; 2026; 2027; 202000; 5040]));
   (68719476735, (301047, [1007; 25060; 1033; 1034; 1012; 301045; 2021; 301011; 301012; 201138; 202131; 4006; 201000; 202000; 301023]));
   (68719476735, (301048, [2104; 2121; 2113; 2026; 2027; 2111; 2140; 202127; 1013; 202126; 7001; 202000; 25010; 21064]));
   (68719476735, (301049, [2111; 2112; 21062; 21063; 21065]));
   (68719476735, (301051, [1006; 2061; 301011; 301012; 301021; 8004]));
   (68719476735, (301055, [1005; 2001; 301011; 301012; 301021; 1012; 1014]));
   (68711088128, (301056, [1087; 1011; 1015; 2008; 2001; 301011; 301012; 301021; 7030; 7031]));
   (68719475968, (301058, [301011; 301012; 201152; 202135; 4006; 202000; 201000; 301021; 20111; 20112; 20113; 20114; 20115; 20116; 20117; 20118; 20119; 25035; 20121; 20122; 20123; 20124; 25175; 20023; 25063; 202136; 201136; 2121; 201000; 202000; 25061; 2184; 2189; 25036; 101000; 31002; 301059]));
   (512, (301059, [101000; 31001; 301001]));
   (68719475968, (301059, [301021; 7030; 7032]));
   (68719476735, (301062, [101000; 31001; 301001]));
   (68719476735, (301065, [1006; 1008; 2001; 2002; 2005; 2062; 2070; 2065]));
   (68719476735, (301066, [301011; 301013; 301023; 7004; 2064; 8004]));
   (68719469567, (301070, [2143; 2142; 2144]));
   (68719476734, (301071, [1007; 1031; 2020; 2028; 2029]));
   (68719476735, (301072, [301071; 301011; 301013; 301021]));
   (68719469567, (301074, [2143; 2142; 2145; 2146]));
   (1, (301075, [301001; 1015; 301022; 8021; 301011; 301012]));
   (68719469566, (301075, [301001; 1015; 301024; 8021; 301011; 301012]));
   (68719469567, (301076, [2011; 2143; 2142]));
   (68719476734, (301089, [1101; 1102]));
   (68719476734, (301090, [301004; 301011; 301012; 301021; 7030; 7031]));
   (68719476734, (301091, [2180; 2181; 2182; 2183; 2184; 2179; 2186; 2187; 2188; 2189]));
   (68719476734, (301092, [1011; 1003; 2001; 301011; 301012; 301021; 7030; 7031; 33024]));
   (68719476734, (301093, [301036; 7030; 7031]));
   (68719476734, (301110, [301001; 1011; 2011; 2014; 2003]));
   (68719476734, (301111, [301001; 1011; 2011; 2013; 2014; 2003]));
   (68719476734, (301112, [1006; 2011; 2013; 2014; 2003]));
   (68719476734, (301113, [8021; 301011; 301013]));
   (68719476734, (301114, [301021; 7030; 7031; 7007; 33024]));
   (68719476734, (301120, [301001; 1094; 2011; 301121]));
   (68719476734, (301121, [8041; 301122; 301021; 7031; 7007]));
   (68719476734, (301122, [301011; 301012; 201135; 202130; 4006; 202000; 201000]));
   (68719476734, (301123, [102002; 8041; 1062; 301001; 1094; 2011; 1018; 1095; 25061; 25068; 1082; 1083; 1081; 2067; 2066; 2014; 25067; 25065; 25066; 2095; 2096; 2097; 2016; 2083; 2080; 2081; 1093; 2084; 2085; 2086; 2082; 8041; 301011]));
   (68719476734, (301125, [1033; 1034; 25060; 1007; 2019; 1012]));
   (68719411200, (301126, [1087; 1015; 2149; 301011; 301012; 301021]));
   (68718952448, (301128, [1081; 1082; 1083; 1095; 2015; 2016; 2017; 2066; 2067; 2080; 2081; 2082; 2083; 2084; 2085; 2086; 2095; 2096; 2097; 2103; 2191; 25061; 35035]));
   (68685922304, (301129, [1007; 1031; 2019; 2020]));
   (68685922304, (301130, [301011; 301012; 202131; 201138; 4006; 201000; 202000]));
   (68685922304, (301131, [301021; 7024; 5021; 7025; 5022]));
   (67645734912, (301132, [301150; 301001; 301021; 7030; 8021; 301011; 301012; 2006; 1079; 1085]));
   (68715282432, (301150, [1125; 1126; 1127; 1128]));
   (618475290624, (301193, [1007; 1031; 2196; 2221; 2222]));
   (618475290624, (301194, [1194; 1012; 1013; 2011; 2012; 301011; 301012; 301023; 7001]));
   (618475290624, (301195, [1195; 1012; 1013; 2011; 2012; 301011; 301012; 301023; 7001]));
   (618475290624, (301196, [301003; 2011; 2012; 301011; 301012; 301023; 7001]));
   (618475290624, (301197, [1006; 1008; 2061; 2062; 2002; 2005; 2070; 2063; 2001]));
   (618475290624, (301198, [1011; 1012; 1013; 2011; 2012; 301011; 301012; 301023; 7001]));
   (618475290624, (301200, [1032; 33194]));
   (618475290624, (301201, [101003; 33193]));
   (618475290624, (301202, [1031; 1032]));
   (618475290624, (301237, [1007; 1012; 2021; 301011; 4004; 4005; 201138; 202131; 4006; 201000; 202000; 301023]));
   (618475290624, (301238, [2104; 2121; 2113; 2026; 2027; 2111; 2192; 202127; 1013; 202126; 7001; 202000; 25010; 21194]));
   (618475290624, (301239, [2111; 2112; 21192; 21193; 21195]));
   (618475290624, (301240, [201131; 202129; 22021; 201000; 202000]));
   (618475290624, (301241, [201141; 202130; 7001; 201000; 202000]));
   (618475290624, (301242, [21207; 21208; 21209; 21210; 21211; 21212]));
   (618475290624, (301250, [301193; 301011; 301013; 301021]));
   (68719476735, (302001, [10004; 10051; 10061; 10063]));
   (68719476735, (302002, [10004; 7004; 10003; 10061; 10063]));
   (68719476735, (302003, [11011; 11012; 12004; 12006; 13003; 20001; 20003; 20004; 20005]));
   (68719476735, (302004, [20010; 8002; 20011; 20013; 20012; 20012; 20012]));
   (68719476735, (302005, [8002; 20011; 20012; 20013]));
   (68719476735, (302006, [10004; 10051; 10062; 10063]));
   (68719476735, (302011, [302001; 302003; 302004]));
   (68719476735, (302012, [302002; 302003; 302004]));
   (68719476735, (302013, [302006; 302003; 101000; 31001; 302005]));
   (68719476735, (302021, [22001; 22011; 22021]));
   (68719476735, (302022, [22002; 22012; 22022]));
   (68719476735, (302023, [22003; 22013; 22023]));
   (68719476735, (302024, [302022; 101002; 302023]));
   (68719476734, (302031, [302001; 10062; 7004; 10009]));
   (68719476734, (302032, [7032; 12101; 12103; 13003]));
   (68719476734, (302033, [7032; 20001]));
   (68719476734, (302034, [7032; 13023]));
   (68719476734, (302035, [302032; 302033; 302034; 7032; 302004; 101000; 31001; 302005]));
   (68719476734, (302036, [105000; 31001; 8002; 20011; 20012; 20014; 20017]));
   (68719476734, (302037, [20062; 13013; 12113]));
   (68719476734, (302038, [20003; 4024; 20004; 20005]));
   (68719476734, (302039, [4024; 14031]));
   (68719476734, (302040, [7032; 102002; 4024; 13011]));
   (68719476734, (302041, [7032; 4024; 4024; 12111; 4024; 4024; 12112]));
   (68719476734, (302042, [7032; 2002; 8021; 4025; 11001; 11002; 8021; 103002; 4025; 11043; 11041]));
   (68719476734, (302043, [302038; 101002; 302039; 302040; 302041; 302042; 7032]));
   (68719476734, (302044, [4024; 2004; 13033]));
   (68719476734, (302045, [4024; 14002; 14004; 14016; 14028; 14029; 14030]));
   (68719476734, (302046, [4024; 4024; 12049]));
   (68719476734, (302047, [102003; 8002; 20054]));
   (68719476734, (302048, [5021; 7021; 20012; 5021; 7021]));
   (68719476734, (302049, [8002; 20011; 20013; 20012; 20012; 20012; 8002]));
   (68719476734, (302050, [8041; 5021; 7005; 202130; 6021; 202000; 8041; 201131; 202129; 2115; 10004; 2115; 13003; 202000; 201000; 2115; 11001; 11002; 2115; 102002; 12101; 4024; 2115; 12103; 12102; 101003; 20012; 20011; 20013; 101002; 20003]));
   (68719476735, (302051, [10004; 10051; 7004; 10003; 12004; 12051; 12016; 12017; 13004; 102004; 8051; 8020]));
   (68719476734, (302052, [7032; 7033; 12101; 2039; 12102; 12103; 13003]));
   (68719476734, (302053, [7032; 7033; 20001]));
   (68719476734, (302054, [302052; 302053; 7033; 302034; 7032; 302004; 101000; 31001; 302005]));
   (68719476734, (302055, [20031; 20032; 20033; 20034; 20035; 20036; 20037; 20038]));
   (68719476734, (302056, [2038; 7063; 22043; 7063]));
   (68719476734, (302057, [302056; 302021; 302024]));
   (68719476734, (302058, [7032; 7033; 4024; 4024; 12111; 4024; 4024; 12112]));
   (68719476734, (302059, [7032; 7033; 2002; 8021; 4025; 11001; 11002; 8021; 103002; 4025; 11043; 11041]));
   (68719476734, (302060, [302038; 302040; 302058; 302059]));
   (68717379584, (302062, [25188; 302001; 302093; 101000; 31000; 302053; 7032; 7033; 101000; 31000; 302004; 101000; 31001; 302005; 8002; 101000; 31000; 302055; 101000; 31000; 302056; 101000; 31000; 302021; 101000; 31000; 302024]));
   (3072, (302062, [302001; 302052; 302053; 7033; 101000; 31000; 302034; 7032; 20010; 8002; 20013; 104000; 31000; 20011; 20012; 20012; 20012; 101000; 31001; 302005; 8002; 101000; 31000; 302055; 101000; 31000; 302056; 101000; 31000; 302021; 101000; 31000; 302024]));
   (1022, (302062, [302001; 302052; 302053; 7033; 101000; 31000; 302034; 7032; 101000; 31001; 302005; 8002; 101000; 31000; 302055; 101000; 31000; 302056; 101000; 31000; 302021; 101000; 31000; 302024]));
   (68717379584, (302063, [302038; 101000; 31000; 302040; 101000; 31000; 302034; 7032; 101000; 31000; 302058; 101000; 31000; 302064]));
   (1022, (302063, [302038; 101000; 31000; 302040; 101000; 31000; 302058; 302059]));
   (3072, (302063, [302038; 101000; 31000; 302040; 101000; 31000; 302058; 302064]));
   (68718956032, (302064, [7032; 7033; 2002; 8021; 4025; 11001; 11002; 8021; 103000; 31001; 4025; 11043; 11041]));
   (68719476734, (302066, [20023; 20024; 20027; 20054; 20023; 20027; 20054; 20025; 20026; 20027; 20040; 20066; 20027; 20021; 20067; 20027]));
   (68718952448, (302067, [1023; 4025; 2177; 101000; 31001; 20003; 103000; 31001; 5021; 20001; 5021; 101000; 31000; 302056; 103000; 31000; 33041; 20058; 22061; 101000; 31000; 302022; 101000; 31001; 302023; 104000; 31001; 20054; 20137; 20012; 20090; 103000; 31001; 20054; 20137; 20136; 4025; 13012; 4025; 11042; 104000; 31001; 8021; 4025; 11042; 8021; 115000; 31001; 8021; 4015; 8021; 4025; 11001; 11002; 8021; 4015; 8021; 4025; 11001; 11002; 8021; 4025; 4015; 103000; 31001; 4025; 4025; 20003; 110000; 31001; 4025; 4025; 5021; 5021; 20054; 20024; 20025; 20026; 20027; 20063]));
   (68719476734, (302069, [7032; 7033; 33041; 20001]));
   (68719476734, (302070, [7032; 7033; 11001; 11002; 11043; 11041; 11016; 11017]));
   (68719476734, (302071, [7032; 7033; 8021; 4025; 11001; 11002; 8021; 103002; 4025; 11043; 11041; 4025; 11016; 11017]));
   (68719476734, (302072, [7032; 7033; 12101; 12103; 13003]));
   (68719476734, (302073, [20010; 105004; 8002; 20011; 20012; 33041; 20013]));
   (68719476734, (302074, [20003; 4025; 20004; 20005]));
   (68719476734, (302075, [8021; 4025; 13055; 13058; 8021]));
   (68719476734, (302076, [20021; 20022; 26020; 20023; 20024; 20025; 20026]));
   (68719476734, (302077, [7032; 7033; 4025; 12111; 12112; 7032; 4025; 12112]));
   (68719476734, (302078, [2176; 20062; 2177; 13013]));
   (68719476734, (302079, [7032; 2175; 2178; 4025; 13011]));
   (68719476734, (302080, [2185; 4025; 13033]));
   (68719476734, (302081, [4025; 14031]));
   (68719476734, (302082, [4025; 14002; 14004; 14016; 14028; 14029; 14030]));
   (68719476734, (302083, [4025; 8023; 10004; 11001; 11002; 12101; 13003; 8023]));
   (68719476480, (302084, [302031; 302072; 103000; 31000; 101005; 307063; 7061; 101000; 31000; 302069; 7032; 7033; 105000; 31000; 20031; 20032; 2038; 22043; 302021; 101000; 31000; 302078; 12113; 101000; 31000; 302004; 105000; 31001; 8002; 20011; 20012; 33041; 20013; 302036; 101000; 31000; 302047; 8002; 101000; 31000; 302048]));
   (68719476480, (302085, [105000; 31000; 20003; 103002; 4024; 20004; 20005; 101000; 31000; 302175; 102000; 31000; 4025; 302076; 102000; 31000; 4025; 13059; 7032; 7033; 8021; 4025; 11001; 11002; 8021; 103003; 4025; 11043; 11041; 4025; 11016; 11017; 302077; 7033; 302041; 106000; 31000; 7032; 2175; 2178; 102005; 4024; 13011; 7032; 103000; 31000; 2185; 101002; 302044; 102000; 31000; 101002; 302039; 102000; 31000; 101002; 302045; 101000; 31000; 302046; 101000; 31000; 302083]));
   (68719476480, (302089, [20101; 20102; 20103; 20104; 20105; 20106; 20107; 20108]));
   (68719468544, (302090, [2038; 7063; 22045]));
   (3840, (302090, [2038; 7063; 22045; 7063]));
   (68719411200, (302091, [20001; 4024; 13011]));
   (68717379584, (302092, [11104; 1012; 1013; 10038; 10039; 11007; 11008]));
   (68717379584, (302093, [7032; 7033; 303099; 12101; 103000; 31000; 7032; 7033; 303099; 2039; 2097; 3024; 3021; 12102; 12103; 13003; 7032; 7033; 303099; 2039; 2097; 3021; 3024]));
   (68719476480, (302175, [8021; 4025; 13155; 13058; 8021]));
   (618475290624, (302205, [201131; 202129; 22021; 201000; 202000]));
   (618475290624, (302206, [302205; 201130; 202129; 22011; 201000; 202000; 22001; 11001; 11002]));
   (618475290624, (302207, [22193; 22194; 22195; 22196; 22197]));
   (618475290624, (302250, [102000; 31001; 20193; 20194; 20012]));
   (68719476735, (303001, [7003; 11001; 11002]));
   (68719476735, (303002, [7004; 11001; 11002]));
   (68719476735, (303003, [7004; 10003; 12001; 12003]));
   (68719476735, (303004, [7004; 10003; 12001; 12003; 11001; 11002]));
   (68719476735, (303011, [7003; 8001; 11001; 11002]));
   (68719476735, (303012, [7004; 8001; 11001; 11002]));
   (68719476735, (303013, [7004; 8001; 10003; 12001; 13003; 11001; 11002]));
   (68719476735, (303014, [7004; 8001; 10003; 12001; 12003; 11001; 11002]));
   (68719476735, (303021, [7004; 7004; 204007; 31021]));
   (68719476735, (303022, [303021; 10003; 204000]));
   (68719476735, (303023, [303021; 12001; 204000]));
   (68719476735, (303024, [303021; 13016; 204000]));
   (68719476735, (303025, [2025; 204007; 31021; 12063; 204000]));
   (68719476735, (303026, [7004; 8003; 204007; 31021; 12001; 204000]));
   (68719476735, (303027, [7004; 204007; 31021; 10003; 204000]));
   (68719476735, (303031, [7004; 8003; 7021; 7022; 8012; 12061]));
   (68719476735, (303032, [20011; 20016]));
   (68719476735, (303033, [20010; 20016]));
   (68719476734, (303040, [8041; 4025; 4026; 301021; 301122; 201131; 202129; 25069; 7004; 13003; 202000; 201000; 2013; 12101; 10009; 102002; 8040; 35035]));
   (68719476735, (303041, [2152; 2023; 7004; 11001; 11002; 2153; 2154; 12071]));
   (68719476734, (303050, [4086; 8042; 7004; 5015; 6015; 11001; 11002]));
   (68719476734, (303051, [4086; 8042; 7004; 5015; 6015; 11061; 11062]));
   (68719476734, (303052, [4086; 8042; 7009; 5015; 6015; 11001; 11002]));
   (68719476734, (303053, [4086; 8042; 7009; 5015; 6015; 11061; 11062]));
   (68719476734, (303054, [4086; 8042; 7004; 10009; 5015; 6015; 12101; 12103; 11001; 11002]));
   (68719476480, (303055, [4086; 8042; 7009; 5015; 6015; 12101; 13009; 12103; 11001; 11002]));
   (68685922304, (303056, [4086; 8042; 207001; 7004; 10009; 207000; 5015; 6015; 12101; 12103; 11001; 11002]));
   (68717379584, (303099, [3005; 3006; 3007; 2096; 3022; 3003; 3020; 3004; 3023; 3008; 3009]));
   (34359738368, (303100, [13165; 13045; 13166; 13044; 13042; 13167; 13168; 13169; 13170; 13171]));
   (618475290624, (303249, [2252; 104000; 31001; 2199; 7004; 7004; 13003]));
   (618475290624, (303250, [2252; 2023; 7004; 11001; 11002; 2197; 2198; 12193]));
   (618475290624, (303251, [2252; 105000; 31001; 2254; 2251; 2197; 2198; 12063]));
   (618475290624, (303252, [2252; 105000; 31001; 2254; 2251; 2197; 2198; 12194]));
   (68719476735, (304001, [8003; 10004; 12001; 11001; 11002]));
   (68719476735, (304002, [8003; 10004; 11001; 11002]));
   (68719476735, (304003, [8003; 12001]));
   (68719476735, (304004, [8003; 10004; 20010; 12001]));
   (68719476735, (304005, [2024; 7004; 7004; 13003]));
   (68719476735, (304006, [14001; 14001; 14003]));
   (68719476735, (304011, [2163; 2164; 8012; 7024; 2057; 8021; 4001; 4002; 4003; 4004; 8021; 4024; 110004; 8021; 4004; 4005; 4006; 8021; 4004; 4005; 4006; 11001; 11002; 103010; 2163; 7004; 12001]));
   (68719476735, (304030, [27031; 28031; 10031]));
   (68719476735, (304031, [1041; 1042; 1043]));
   (68719476735, (304032, [2153; 2154; 20081; 20082; 20012]));
   (68719476735, (304033, [2152; 2166; 2167; 2153; 2154; 12075; 12076; 12063]));
   (68719476735, (304034, [102004; 27001; 28001; 7022; 5043; 20010; 20016; 33003; 10040]));
   (68719475710, (304035, [2153; 2154; 12063; 8001; 12063; 8001; 12063; 8001; 8003; 12063; 8003; 12063; 8003; 12063; 8003]));
   (1024, (304035, [2153; 2154; 12063; 8011; 12063; 8011; 12063; 8011; 8003; 12063; 8003; 12063; 8003; 12063; 8003]));
   (68719476734, (304036, [20082; 8012; 20082; 8012; 20081; 8003; 20081; 8003; 20081; 8003; 20081; 8003]));
   (68719475712, (304037, [2153; 2154; 12063; 8011; 12063; 8011; 12063; 8011; 8003; 12063; 8003; 12063; 8003; 12063]));
   (254, (304037, [2153; 2154; 12063; 8011; 12063; 8011; 12063; 8011; 8003; 12063; 8003; 12063; 8003; 12063; 8003]));
   (68685922304, (304039, [201136; 5042; 201000; 14046]));
   (68685922304, (304040, [25140; 25141; 40026; 40016; 25062; 101000; 31002; 40017]));
   (618475290624, (304228, [5217; 6217; 7217]));
   (618475290624, (304229, [1208; 1209; 1210]));
   (618475290624, (304250, [2231; 2232; 8012; 7024; 2057; 8021; 4001; 4002; 4003; 4004; 8021; 4024; 110004; 8021; 4004; 4005; 4006; 8021; 4004; 4005; 4006; 11001; 11002; 103010; 2231; 7004; 12001]));
   (68719476734, (305001, [11001; 11002; 13060; 13071]));
   (68719468544, (305002, [301012; 12001; 13003; 14051; 13060; 13072; 13080; 13081; 13082; 13083; 13084]));
   (68719476734, (305003, [301012; 4065; 101000; 31001; 305001]));
   (68719468544, (305004, [301030; 305002; 305003]));
   (68719476734, (305006, [13072; 13082; 13019; 12001; 13073; 13060]));
   (68719476734, (305007, [301029; 301012; 4065; 101000; 31001; 305006]));
   (68719476734, (305008, [305006; 12030]));
   (68719476734, (305009, [301029; 301012; 4065; 101000; 31001; 305008]));
   (68719468544, (305010, [305008; 2091; 2091]));
   (68719476734, (305011, [301029; 301012; 4065; 101000; 31001; 305010]));
   (68719468544, (305016, [14021; 7004; 13003; 11002; 11001; 11041; 11043]));
   (68719468544, (305017, [13080; 13081; 13083; 13085; 13084]));
   (68719476734, (305018, [301029; 301012; 4065; 103000; 31001; 305008; 305016; 305017]));
   (68719476735, (306001, [2032; 102000; 31001; 7062; 22042]));
   (68719476735, (306002, [2031; 22004; 22031]));
   (68719476735, (306003, [2002; 11011; 11012; 12004]));
   (68719476735, (306004, [2032; 2033; 103000; 31001; 7062; 22043; 22062]));
   (68719476735, (306005, [2031; 103000; 31001; 7062; 22004; 22031]));
   (68719476735, (306006, [306003; 306002; 22063]));
   (68719476735, (306007, [1012; 1014; 306008; 4024; 27003; 28003]));
   (68719476735, (306008, [2034; 2035; 2036]));
   (68719415040, (306011, [301021; 1075; 2147; 301011; 301013]));
   (68719415040, (306012, [2007; 8015; 8032; 306029]));
   (68719415040, (306013, [306012; 301011; 301013; 22120; 22121; 4015; 4065; 102000; 31001; 22038; 22040]));
   (68719415040, (306014, [306012; 301011; 301013; 22120; 22121; 4015; 4065; 101000; 31001; 22038]));
   (3840, (306016, [301011; 301013; 10004; 10051; 302032]));
   (68719411200, (306016, [301011; 301013; 10004; 10051; 302032; 7032; 2002; 8021; 4025; 11001; 11002; 4025; 11043; 11041; 25026; 12060]));
   (68718952448, (306017, [2032; 8034; 106000; 31002; 7065; 8080; 33050; 22045; 8080; 33050; 8034]));
   (68718952448, (306018, [2032; 8034; 109000; 31002; 7065; 8080; 33050; 22045; 8080; 33050; 22064; 8080; 33050; 8034]));
   (68719476734, (306019, [1075; 301011; 301012; 22042; 22120; 22121; 4015; 4065]));
   (68719468544, (306020, [1075; 301011; 301012; 22042; 22120; 22121; 4075; 4065]));
   (1022, (306020, [306024; 102006; 22038; 22039]));
   (68719469566, (306021, [1075; 301011; 301012; 22122; 22123; 12001; 303002]));
   (68719469566, (306022, [1075; 301011; 301012; 22038; 22039]));
   (68719476735, (306023, [1015; 301023; 301011; 301012; 22038; 22039; 22120; 22121]));
   (1022, (306024, [1075; 301011; 301012; 22042; 22120; 22121; 4025; 4015]));
   (68719468544, (306024, [306020; 102006; 22038; 22039]));
   (68719469566, (306025, [306019; 102006; 22038; 22039]));
   (68719476480, (306027, [1005; 1052; 2047; 301011; 301013]));
   (68719476480, (306028, [306027; 301011; 301013; 301021]));
   (68719476480, (306029, [25170; 25171; 25172]));
   (68719476480, (306030, [306027; 306029; 111000; 31001; 33002; 301011; 301013; 25025; 25025; 25026; 22185; 4015; 4065; 101004; 22182]));
   (68719476480, (306031, [306027; 306029; 1053; 33002; 301011; 301013; 301011; 301013; 22185; 22182; 4016; 4066; 101000; 31001; 22184]));
   (3840, (306032, [2032; 2033; 103000; 31001; 7062; 22043; 22062; 22066]));
   (68719411200, (306033, [2033; 7063; 22064]));
   (68719411200, (306034, [2031; 3010; 2040; 22005; 22032]));
   (68719411200, (306035, [112000; 31002; 7062; 8080; 33050; 7065; 8080; 33050; 22043; 8080; 33050; 22064; 8080; 33050]));
   (68719411200, (306036, [112000; 31002; 7062; 8080; 33050; 7065; 8080; 33050; 22031; 8080; 33050; 22004; 8080; 33050]));
   (68719411200, (306037, [109000; 31002; 7062; 8080; 33050; 7065; 8080; 33050; 22188; 8080; 33050]));
   (68719411200, (306038, [10004; 10051; 7033; 12101; 12103; 13003; 7033; 8021; 4025; 11001; 11002; 8021; 4025; 11041; 4025; 7033; 2005; 7063; 22049]));
   (68719411200, (306039, [22078; 22070; 22073; 22074; 22071; 22076; 22077]));
   (68719411200, (306040, [22078; 22082; 106000; 31001; 22080; 22069; 22086; 22087; 22088; 22089]));
   (68719411200, (306041, [2032; 102000; 31001; 7062; 22043]));
   (68719411200, (306042, [2169; 7033; 8021; 4025; 11001; 11002]));
   (68717379584, (306043, [41001; 8043; 15028; 8043; 13080; 41005; 41003; 22188; 41002; 106000; 31000; 4024; 14002; 14002; 14012; 14004; 4024]));
   (34359738368, (306044, [203014; 22188; 203255; 108000; 31002; 7065; 8080; 33050; 201129; 22188; 201000; 8080; 33050; 203000]));
   (34359738368, (306045, [203011; 41004; 203255; 106000; 31002; 7065; 8080; 33050; 41004; 8080; 33050; 203000]));
   (34359738368, (306046, [203015; 41003; 203255; 106000; 31002; 7065; 8080; 33050; 41003; 8080; 33050; 203000]));
   (34359738368, (306047, [106000; 31002; 7065; 8080; 33050; 41006; 8080; 33050]));
   (34359738368, (306048, [203009; 41007; 203255; 106000; 31002; 7065; 8080; 33050; 41007; 8080; 33050; 203000]));
   (68719476735, (307001, [301031; 302011]));
   (68719476735, (307002, [301032; 302011]));
   (68719476735, (307003, [307001; 101000; 31001; 302005]));
   (68719476735, (307004, [307002; 101000; 31001; 302005]));
   (68719476735, (307005, [307001; 101004; 302005]));
   (68719476735, (307006, [307002; 101004; 302005]));
   (68719476735, (307007, [301031; 302012]));
   (68719476735, (307008, [301032; 302012]));
   (68719476735, (307009, [301031; 302013]));
   (68719476735, (307011, [1063; 2001; 301011; 301012; 301024; 7006; 11001; 11016; 11017; 11002; 11041; 7006; 12001; 12003; 10052; 20009]));
   (68719476735, (307012, [103000; 31001; 8023; 5021; 20001]));
   (68719476735, (307013, [106000; 31001; 1064; 8014; 20061; 8014; 20061; 20018]));
   (68719476735, (307014, [101000; 31001; 20019]));
   (1, (307015, [101000; 31001; 302005; 8002; 20011; 20012; 20013; 20002]));
   (68719476734, (307015, [101000; 31001; 302005; 20002]));
   (68719476735, (307016, [101000; 31001; 20020]));
   (68719476734, (307017, [101000; 31001; 11070]));
   (1, (307017, [101000; 31001; 20020]));
   (1, (307018, [8016; 102000; 31001; 8017; 301012; 104000; 31001; 7006; 11001; 11002; 11041; 20009; 101000; 31001; 20001; 101000; 31001; 20019]));
   (68719476734, (307018, [8016; 102000; 31001; 8017; 301012; 104000; 31001; 7006; 11001; 11002; 11041; 20009; 101000; 31001; 20001; 307014]));
   (68719476735, (307020, [307011; 307014; 307016]));
   (68719476735, (307021, [307011; 307012; 307013; 307014; 307015; 307016; 307017; 307018; 307015]));
   (68719476734, (307022, [1015; 301011; 301012; 301022; 8021; 4025; 10004; 12001; 13003; 33038; 8022; 106025; 2020; 1050; 5021; 7021; 15031; 15032; 8060; 15033; 15034; 8060; 15033; 15034; 15035; 201131; 202129; 13016; 202000; 201000; 15011]));
   (67645734912, (307024, [301150; 1015; 1040; 8021; 301011; 301013; 301022; 10036; 25061; 10004; 12001; 13003; 120000; 31000; 25060; 8021; 4025; 115000; 31001; 15079; 15080; 8022; 33093; 15089; 15035; 102002; 8060; 15083; 201131; 202129; 13016; 202000; 201000; 15011; 131000; 31000; 25060; 8021; 4025; 33093; 125000; 31001; 2020; 1050; 1150; 202127; 304030; 202000; 5021; 7021; 15038; 15039; 15090; 15081; 15082; 15079; 15089; 15035; 102002; 8060; 15083; 15084; 15085; 15086; 15087; 15088; 15011]));
   (68719469567, (307030, [15001; 15002]));
   (68719469567, (307031, [8022; 8023; 15001; 8023; 15001; 8023; 15002]));
   (1023, (307041, [301001; 1015; 301022; 301011; 301012; 301070; 307030]));
   (68719468544, (307041, [301001; 1015; 301024; 301011; 301012; 301070; 307030]));
   (1023, (307042, [301001; 1015; 301022; 301011; 301012; 8021; 4025; 301070; 307031]));
   (68719468544, (307042, [301001; 1015; 301024; 301011; 301012; 8021; 4025; 301070; 307031]));
   (68719469567, (307043, [301001; 1015; 301024; 301011; 301012; 301074; 307030]));
   (68719468544, (307044, [301001; 1015; 301024; 301011; 301012; 8021; 4025; 301074; 307031]));
   (68719475712, (307045, [1063; 8079; 2001; 301011; 301012; 301023; 7030; 7031; 7032; 11001; 11016; 11017; 8054; 11083; 11084; 11002; 8054; 11085; 11086; 11041; 8054; 7032; 12023; 12024; 7032; 10052; 20009]));
   (1022, (307045, [1063; 8079; 2001; 301011; 301012; 301024; 7032; 11001; 11016; 11017; 8054; 11083; 11084; 11002; 8054; 11085; 11086; 11041; 8054; 7032; 12023; 12024; 7032; 10052; 20009]));
   (68719476734, (307046, [20060; 102000; 31001; 5021; 20059]));
   (68719476734, (307047, [105000; 31001; 8002; 20011; 20012; 20013; 20092; 20002; 20091]));
   (68719476734, (307048, [8016; 102000; 31001; 8017; 301012; 112000; 31000; 7032; 11001; 8054; 11083; 11084; 11002; 8054; 11085; 11086; 11041; 8054; 7032; 20009; 101000; 31000; 20060; 307014; 307047]));
   (68719476734, (307049, [102000; 31000; 22043; 22021]));
   (68719476734, (307050, [101000; 31000; 20085; 102000; 31001; 1064; 20085; 105000; 31001; 1064; 20086; 20087; 20088; 20089]));
   (68719476480, (307051, [307045; 307046; 307013; 307014; 307047; 307016; 307017; 307049; 307050; 101000; 31001; 307048]));
   (68719475712, (307052, [1063; 8039; 301011; 301012; 8079; 8039; 301011; 301012; 8039; 301011; 301012; 301023; 7030; 7031]));
   (1022, (307052, [1063; 8039; 301011; 301012; 8079; 8039; 301011; 301012; 8039; 301011; 301012; 301024]));
   (68719476734, (307053, [7032; 11001; 8054; 11083; 11084; 11002; 8054; 11085; 11086; 11041; 8054; 7032; 20009; 20060; 307014; 307047]));
   (68719476734, (307054, [7032; 8039; 4003; 4004; 8023; 12023; 8039; 4003; 4004; 8023; 12023; 8023; 7032]));
   (68719476734, (307055, [33045; 8016; 8039; 4003; 301012; 8039; 4003; 301012; 307053]));
   (68719476734, (307056, [307052; 307053; 307054; 101000; 31001; 307055]));
   (1022, (307059, [307045; 307046; 307013; 307014; 307047; 307016; 307017; 307049; 307050; 101000; 31001; 307048]));
   (68719469567, (307060, [7061; 12030]));
   (68719469567, (307061, [301031; 101005; 307060]));
   (68719469567, (307062, [301032; 101005; 307060]));
   (68719476735, (307063, [7061; 12130]));
   (34359738368, (307064, [4025; 106000; 31001; 7061; 201131; 202129; 12130; 201000; 202000]));
   (68719476734, (307071, [301090; 4074; 4023; 8023; 10004; 10051; 7004; 10009; 7032; 12101; 2051; 4051; 12118; 4052; 12119; 13004; 8023; 12151; 7032; 102005; 8050; 8020; 14032; 14033; 8050; 8020; 102018; 8052; 8022; 7032; 8053; 4003; 12152; 8053; 4003; 12153; 8053; 4003; 8023; 12101; 8053; 4003; 8023; 12101; 8023; 7032; 2002; 8053; 4003; 11046; 8053; 4003; 4004; 4023; 7032; 13060; 13051; 4053; 8050; 8020; 102006; 8052; 8022; 8053; 4003; 13052; 7032]));
   (68719476734, (307072, [4001; 4001; 4002; 4003; 4004; 4074; 4022; 8023; 10004; 10051; 7004; 10009; 7032; 12101; 2051; 4051; 12118; 4052; 12119; 13004; 12151; 7032; 14032; 8023; 4001; 4001; 4002; 4003; 4004; 4022; 7032; 8023; 13060; 4053; 8023; 102008; 8050; 8020]));
   (68719476734, (307073, [307071; 307072]));
   (68719214592, (307074, [301001; 4001; 4002; 301021; 7030; 7032; 112000; 31001; 4003; 4004; 4024; 102003; 8023; 12101; 8023; 4004; 4024; 13060; 13012; 13013]));
   (64424509440, (307075, [301150; 301001; 301021; 7030; 8095; 8096; 8094; 301011; 4023; 301013; 204008; 31021; 13060; 204000; 4023; 301013; 204008; 31021; 13012; 204000; 4023; 301013; 204008; 31021; 13013; 204000; 7032; 107003; 4023; 301013; 8023; 204008; 31021; 12101; 204000; 8023]));
   (68719345664, (307076, [301090; 4074; 4023; 8023; 10004; 10051; 7004; 10009; 7032; 12101; 2051; 4051; 12118; 4052; 12119; 13004; 8023; 12151; 7032; 102005; 8050; 8020; 14032; 14033; 8050; 8020; 102018; 8052; 8022; 7032; 8053; 4003; 12152; 8053; 4003; 12153; 8053; 4003; 8023; 12101; 8053; 4003; 8023; 12101; 8023; 7032; 2002; 8053; 4003; 11046; 8053; 4003; 4004; 4074; 4023; 7032; 13060; 13051; 4053; 8050; 8020; 102006; 8052; 8022; 8053; 4003; 13052; 7032]));
   (68719345664, (307077, [4001; 4001; 4002; 4003; 4004; 4074; 4022; 8023; 10004; 10051; 7004; 10009; 7032; 12101; 2051; 4051; 12118; 4052; 12119; 13004; 12151; 7032; 14032; 8023; 4001; 4001; 4002; 4003; 4004; 4074; 4022; 7032; 8023; 13060; 4053; 8023; 102008; 8050; 8020]));
   (68719345664, (307078, [307076; 307077]));
   (68719476480, (307079, [301090; 302031; 302035; 302036; 101000; 31000; 302047; 8002; 101000; 31000; 302048; 302037; 102000; 31000; 22061; 20058; 101000; 31000; 302056; 101000; 31000; 302055; 302043; 302044; 101000; 31001; 302045; 101000; 31000; 302046]));
   (68719476734, (307080, [301090; 302031; 302035; 302036; 302047; 8002; 302048; 302037; 302043; 302044; 101002; 302045; 302046]));
   (68719476734, (307081, [301090; 302031; 302035; 302036; 302047; 8002; 302048; 302037; 12122; 13056; 13057; 20101; 20102; 20103; 20104; 20105; 20106; 20107; 20108; 302043; 302044; 101002; 302045; 302046]));
   (68719476734, (307082, [301090; 302031; 302035; 302036; 302047; 8002; 302048; 302037; 12121; 12122; 302043; 302044; 101002; 302045; 302046]));
   (68719476734, (307083, [301090; 302031; 302035; 302036; 302047; 8002; 302048; 302037; 12122; 302043; 302044; 101002; 302045; 302046]));
   (68719476734, (307084, [301090; 302031; 302035; 302036; 302047; 8002; 302048; 302037; 20055; 101000; 31001; 205001; 302043; 302044; 101002; 302045; 302046]));
   (68719476734, (307086, [301090; 302031; 302035; 302036; 8002; 302037; 302066; 302043; 302044; 101002; 302045]));
   (68719468544, (307087, [301001; 2001; 301011; 301012; 301023; 7030; 7031; 302001; 10062; 7004; 10009; 7032; 12101; 12103; 13003; 7032; 20001; 302004; 101000; 31001; 302005]));
   (68719468544, (307088, [20003; 4024; 20004; 20005; 4024; 2004; 13033; 102002; 4024; 14031; 102002; 4024; 13011; 7032; 4024; 12111; 4024; 12112; 7032; 2002; 8021; 4025; 11001; 11002; 8021]));
   (68719468544, (307089, [307087; 307088]));
   (68719476734, (307090, [301092; 302031; 302035; 302036; 302047; 8002; 302048; 302037; 302043; 302044; 101002; 302045; 302046]));
   (1022, (307091, [301089; 301090; 8010; 301091; 302001; 7004; 10009; 302072; 103000; 31000; 101005; 307063; 7061; 101000; 31000; 302069; 7032; 7033; 105000; 31000; 20031; 20032; 2038; 22043; 302021; 101000; 31000; 302078; 101000; 31000; 302073; 101000; 31000; 302074; 101000; 31000; 302075; 102000; 31000; 4025; 302076; 302071; 302077; 7033; 101000; 31000; 302079; 7032; 101000; 31000; 302080; 101000; 31000; 302081; 101000; 31000; 302082; 102000; 31000; 4025; 13059; 101000; 31000; 302083; 33005; 33006]));
   (68719475712, (307091, [301089; 301090; 8010; 301091; 302001; 7004; 10009; 302072; 103000; 31000; 101005; 307063; 7061; 101000; 31000; 302069; 7032; 7033; 105000; 31000; 20031; 20032; 2038; 22043; 302021; 101000; 31000; 302078; 101000; 31000; 302073; 101000; 31000; 302074; 101000; 31000; 302175; 102000; 31000; 4025; 302076; 302071; 302077; 7033; 101000; 31000; 302079; 7032; 101000; 31000; 302080; 101000; 31000; 302081; 101000; 31000; 302082; 102000; 31000; 4025; 13059; 101000; 31000; 302083; 33005; 33006]));
   (768, (307092, [301089; 301090; 8010; 301091; 4015; 4065; 125000; 31001; 10004; 302070; 302072; 7032; 12101; 103000; 31000; 101005; 307063; 7061; 101000; 31000; 302069; 7032; 7033; 101000; 31000; 302073; 101000; 31000; 302076; 102000; 31000; 13055; 13058; 102000; 31000; 20031; 20032; 101000; 31000; 302078; 102000; 31000; 302079; 7032; 101000; 31000; 302080; 101000; 31000; 302081; 101000; 31000; 302083; 102000; 31000; 4025; 13059; 101000; 31000; 302083; 33005; 33006]));
   (3072, (307092, [301089; 301090; 8010; 301091; 4015; 4065; 125000; 31001; 10004; 302070; 302072; 7032; 12101; 103000; 31000; 101005; 307063; 7061; 101000; 31000; 302069; 7032; 7033; 101000; 31000; 302073; 101000; 31000; 302076; 102000; 31000; 13155; 13058; 102000; 31000; 20031; 20032; 101000; 31000; 302078; 102000; 31000; 302079; 7032; 101000; 31000; 302080; 101000; 31000; 302081; 101000; 31000; 302082; 102000; 31000; 4025; 13059; 101000; 31000; 302083; 33005; 33006]));
   (68685922304, (307092, [301150; 301001; 208040; 1019; 208000; 301011; 301012; 301021; 7030; 1023; 108000; 31000; 7031; 204018; 31021; 10004; 10051; 7004; 10009; 204000; 115000; 31001; 7032; 8010; 204018; 31021; 12101; 12103; 202129; 201132; 13003; 201000; 202000; 13009; 204000; 7032; 8010; 107000; 31001; 7061; 204018; 31021; 12130; 13111; 204000; 7061; 105000; 31000; 33041; 204018; 31021; 20001; 204000; 113000; 31000; 204018; 31021; 20010; 204000; 107000; 31001; 8002; 204018; 31021; 20011; 20013; 204000; 8002; 105000; 31000; 204018; 31021; 20062; 13013; 204000; 105000; 31000; 4025; 204018; 31021; 20003; 204000; 105000; 31000; 4025; 204018; 31021; 13011; 204000; 115000; 31001; 7032; 8021; 4025; 204018; 31021; 11001; 11002; 204000; 8021; 204018; 31021; 11043; 11041; 204000; 7032; 105000; 31000; 4025; 204018; 31021; 14031; 204000; 110000; 31000; 4025; 204018; 31021; 14002; 14002; 14004; 14028; 14029; 14030; 204000; 113000; 31000; 4025; 2071; 2072; 204018; 31021; 14072; 204000; 2071; 2072; 204018; 31021; 14072; 204000]));
   (3840, (307093, [223000; 236000; 101000; 31001; 31031; 1033; 1032; 8083; 101000; 31001; 223255; 108000; 31001; 223000; 237000; 1033; 1032; 8083; 101000; 31001; 223255]));
   (68719476480, (307096, [301090; 301089; 8010; 301091; 302084; 302085; 33005; 33006]));
   (68719345664, (307101, [301089; 1019; 2001; 301011; 301012; 301021; 7030; 7032; 12101; 7032; 2177; 20062; 13013]));
   (68718428160, (307102, [301089; 1018; 1015; 1104; 1105; 1106; 3017; 3018; 3019; 301011; 301012; 301021; 7030; 7032; 12101; 12103; 13003; 7032; 20001; 109000; 31001; 3016; 12128; 102000; 31001; 7061; 12129; 7061; 13116; 20138; 4025; 20024; 13055; 20021; 13011; 7032; 8021; 4025; 11001; 11002; 8021; 4025; 11043; 11041; 33005]));
   (68685922304, (307103, [301150; 307101; 13117; 3028; 13163]));
   (68719345664, (307182, [301090; 302031; 302035; 302036; 302047; 8002; 302048; 302037; 12120; 12122; 302043; 302044; 101002; 302045; 302046]));
   (68719476735, (308001, [301033; 302011; 22042]));
   (68719476735, (308002, [301034; 302011; 22042]));
   (68719476735, (308003, [301035; 302011; 22042]));
   (68719476735, (308004, [301036; 302011; 22042]));
   (68719476735, (308005, [308004; 302024]));
   (68719476735, (308006, [10004; 10061; 10063; 11001; 11002; 12004; 13003; 22042]));
   (68719476735, (308007, [301055; 302011; 7062; 22042]));
   (1022, (308008, [1003; 1020; 1005; 2001; 2036; 2149; 301011; 301012; 8021; 301011; 301012; 8021; 301021; 27004; 28004; 7030; 1051; 2148; 1012; 1014; 2040; 33022; 33023; 33027; 22063; 302021; 302022; 302023; 8081; 25026; 8081; 25026; 8081; 25026; 8081; 2034; 22060; 7070; 2190; 25086; 2035; 2168; 20031; 2038; 306004; 2030; 306005; 7031; 8081; 12064; 302001; 8081; 7032; 7033; 12101; 12103; 13003; 7032; 7033; 8082; 7033; 2169; 2002; 8021; 4025; 11001; 11002; 8021; 4025; 11043; 11041; 8082; 7033; 7032; 4024; 13011; 7032; 8021; 4024; 14021; 8021; 25028; 25028; 25028]));
   (3072, (308008, [301093; 302062; 302063]));
   (68719476734, (308009, [301093; 302001; 302054; 8002; 302055; 302057; 302060]));
   (68719476734, (308010, [1011; 113000; 31001; 301011; 301012; 301021; 4080; 22049; 4080; 22059; 4080; 22005; 2042; 22032; 2042; 4080]));
   (68719476734, (308011, [1011; 2001; 301011; 301012; 301023; 7030; 7031; 4074; 4023; 8023; 10051; 7032; 7033; 12101; 13004; 7032; 7033; 302056; 8023; 4003; 4004; 4023; 7032; 13060; 13051; 4053; 7032]));
   (1022, (308012, [4001; 4001; 4002; 4003; 4004; 4074; 4022; 8023; 10051; 7032; 7033; 12101; 13002; 7032; 7033; 302056; 8023; 4001; 4001; 4002; 4003; 4004; 4022; 7032; 8023; 13060; 4053; 8023]));
   (68719475712, (308012, [4001; 4001; 4002; 4003; 4004; 4074; 4022; 8023; 10051; 7032; 7033; 12101; 13004; 7032; 7033; 302056; 8023; 4001; 4001; 4002; 4003; 4004; 4022; 7032; 8023; 13060; 4053; 8023]));
   (68719476734, (308013, [308011; 308012]));
   (68717379584, (308014, [101000; 31000; 301018; 3001; 301093; 208032; 1079; 208000; 302062; 302063; 101000; 31000; 302092; 101000; 31000; 306033; 101000; 31000; 306034; 101000; 31000; 306043]));
   (3840, (308014, [301093; 302062; 302063]));
   (256, (308015, [1003; 1020; 1005; 1011; 1007; 1001; 1002; 2044; 2045; 301011; 301012; 301021; 22063; 22076; 22077; 22094; 25043; 22078; 105002; 2046; 22070; 22071; 22073; 22074; 121000; 31001; 2046; 22082; 22084; 116000; 31001; 22080; 22085; 22086; 22087; 22088; 22089; 103000; 31001; 22090; 22186; 22187; 103000; 31001; 22092; 22186; 22187]));
   (68718428160, (308015, [1003; 1020; 1005; 1011; 1007; 1001; 1002; 2044; 2045; 301011; 301012; 301021; 22063; 22076; 22077; 22094; 25043; 22078; 105002; 2046; 22070; 22071; 22073; 22074; 127000; 31001; 2046; 8090; 22102; 8090; 22084; 120000; 31001; 22080; 22108; 22086; 22087; 22088; 22089; 105000; 31001; 8090; 22104; 8090; 22186; 22187; 105000; 31001; 8090; 22106; 8090; 22186; 22187]));
   (2048, (308015, [1003; 1020; 1005; 1011; 1007; 1001; 1002; 2044; 2045; 301011; 301012; 301021; 22063; 105002; 2046; 22070; 22071; 22073; 22074; 2046; 22076; 22077; 22094; 25043; 22078; 121000; 31001; 2046; 22082; 22084; 116000; 31001; 22080; 22085; 22086; 22087; 22088; 22089; 103000; 31001; 22090; 22186; 22187; 103000; 31001; 22092; 22186; 22187; 2046]));
   (254, (308015, [1003; 1020; 1005; 1011; 1205; 1001; 1002; 2044; 2045; 301011; 301012; 301021; 22063; 105002; 2098; 22070; 22071; 22073; 22074; 2098; 22076; 22077; 22094; 25043; 22078; 121000; 31001; 2098; 22082; 22084; 116000; 31001; 22080; 22085; 22086; 22087; 22088; 22089; 103000; 31001; 22090; 22186; 22187; 103000; 31001; 22092; 22186; 22187; 2098]));
   (256, (308016, [1003; 1020; 1005; 1011; 1007; 1001; 1002; 2044; 2045; 301011; 301012; 301021; 22063; 22076; 22077; 22094; 25044; 22079; 105002; 2046; 22070; 22072; 22073; 22075; 121000; 31001; 2046; 22083; 22084; 116000; 31001; 22081; 22085; 22086; 22087; 22088; 22089; 103000; 31001; 22091; 22186; 22187; 103000; 31001; 22093; 22186; 22187]));
   (68718428160, (308016, [1003; 1020; 1005; 1011; 1007; 1001; 1002; 2044; 2045; 301011; 301012; 301021; 22063; 22076; 22077; 22094; 25044; 22079; 105002; 2046; 22070; 22072; 22073; 22075; 127000; 31001; 2046; 8090; 22103; 8090; 22084; 120000; 31001; 22081; 22108; 22086; 22087; 22088; 22089; 105000; 31001; 8090; 22105; 8090; 22186; 22187; 105000; 31001; 8090; 22107; 8090; 22186; 22187]));
   (2048, (308016, [1003; 1020; 1005; 1011; 1007; 1001; 1002; 2044; 2045; 301011; 301012; 301021; 22063; 105002; 2046; 22070; 22072; 22073; 22075; 2046; 22076; 22077; 22094; 25044; 22079; 121000; 31001; 2046; 22083; 22084; 116000; 31001; 22081; 22085; 22086; 22087; 22088; 22089; 103000; 31001; 22091; 22186; 22187; 103000; 31001; 22093; 22186; 22187; 2046]));
   (254, (308016, [1003; 1020; 1005; 1011; 1205; 1001; 1002; 2044; 2045; 301011; 301012; 301021; 22063; 105002; 2098; 22070; 22072; 22073; 22075; 2098; 22076; 22077; 22094; 25044; 22079; 121000; 31001; 2098; 22083; 22084; 116000; 31001; 22081; 22085; 22086; 22087; 22088; 22089; 103000; 31001; 22091; 22186; 22187; 103000; 31001; 22093; 22186; 22187; 2098]));
   (68711088128, (308017, [301056; 302001; 302052; 101000; 31000; 302056; 302064; 302053; 101000; 31000; 302004; 101000; 31000; 302005; 101000; 31000; 302038; 101000; 31000; 306039]));
   (68652367872, (308018, [301150; 301093; 302001; 302072; 101000; 31000; 302056; 101000; 31000; 302064]));
   (68719345664, (308021, [1011; 2001; 301011; 301012; 301023; 7030; 7031; 4074; 4023; 8023; 10051; 7032; 7033; 12101; 13004; 7032; 7033; 302056; 8023; 4003; 4004; 4074; 4023; 7032; 13060; 13051; 4053; 7032]));
   (68719345664, (308022, [4001; 4001; 4002; 4003; 4004; 4074; 4022; 8023; 10051; 7032; 7033; 12101; 13004; 7032; 7033; 302056; 8023; 4001; 4001; 4002; 4003; 4004; 4074; 4022; 7032; 8023; 13060; 4053; 8023]));
   (68719345664, (308023, [308021; 308022]));
   (68719476735, (309001, [301037; 101000; 31001; 303011]));
   (68719476735, (309002, [301038; 101000; 31001; 303011]));
   (68719476735, (309003, [301037; 101000; 31001; 303012]));
   (68719476735, (309004, [301038; 101000; 31001; 303012]));
   (68719476735, (309005, [301037; 302004; 101000; 31001; 303013]));
   (68719476735, (309006, [301038; 302004; 101000; 31001; 303013]));
   (68719476735, (309007, [301037; 302004; 101000; 31001; 303014]));
   (68719476735, (309008, [301038; 302004; 101000; 31001; 303014]));
   (68719476735, (309011, [301039; 101000; 31001; 303011]));
   (68719476735, (309012, [301039; 101000; 31001; 303012]));
   (68719476735, (309013, [301039; 302004; 101000; 31001; 303013]));
   (68719476735, (309014, [301039; 302004; 101000; 31001; 303014]));
   (68719476735, (309015, [301040; 101000; 31001; 303011]));
   (68719476735, (309016, [301040; 101000; 31001; 303012]));
   (68719476735, (309017, [301040; 302004; 101000; 31001; 303013]));
   (68719476735, (309018, [301040; 302004; 101000; 31001; 303014]));
   (68719476735, (309019, [301031; 2003; 101000; 31001; 303011]));
   (68719476735, (309020, [301031; 2003; 104000; 31001; 7003; 11003; 11004; 11005]));
   (68715282432, (309021, [301001; 5001; 6001; 7030; 301014; 2003; 2121; 112000; 31001; 7007; 301021; 11003; 11110; 11004; 11111; 33002; 11006; 11112; 33002; 10071; 27079]));
   (68715282432, (309022, [301001; 5001; 6001; 7030; 301014; 2003; 2121; 110000; 31001; 7007; 301021; 12007; 12008; 33002; 11006; 11112; 33002; 10071; 27079]));
   (68715282432, (309023, [301001; 5001; 6001; 7030; 301014; 2003; 302004; 302005; 114000; 31001; 7007; 301021; 101000; 31001; 2121; 15063; 15064; 15065; 15066; 15067; 15068; 15069; 15070; 15071; 15072; 33002; 10071; 27079]));
   (67645734912, (309024, [301132; 201151; 202130; 2121; 202000; 201000; 8021; 4025; 109000; 31002; 7007; 301021; 11003; 11004; 33002; 11006; 33002; 10071; 27079]));
   (67645734912, (309025, [301132; 201151; 202130; 2121; 202000; 201000; 8021; 4025; 106000; 31002; 7007; 301021; 12007; 33002; 10071; 27079]));
   (67645734912, (309026, [301132; 302004; 302005; 8092; 8093; 8021; 4025; 201138; 202126; 2121; 202000; 201000; 115000; 31002; 7007; 301021; 15073; 15064; 15074; 15066; 15075; 15068; 15076; 15077; 15078; 15072; 33002; 10071; 27079]));
   (66571993088, (309027, [301132; 8043; 25061; 302004; 302005; 8092; 8093; 8021; 4025; 118000; 31001; 2090; 115000; 31002; 7007; 301021; 15073; 15064; 15074; 15066; 15075; 15068; 15076; 15077; 15078; 15072; 33002; 10071; 27079]));
   (68719476735, (309030, [15004; 15005; 104000; 31001; 4015; 8006; 7004; 15003]));
   (68719476734, (309031, [15004; 15005; 104000; 31001; 4025; 8006; 7004; 15003]));
   (68719469567, (309040, [301075; 301076; 309030]));
   (68719468544, (309041, [307041; 301075; 301076; 309030]));
   (68719469567, (309042, [307042; 301075; 301076; 309030]));
   (68719468544, (309043, [307043; 301075; 301076; 309030]));
   (68719468544, (309044, [307044; 301075; 301076; 309030]));
   (68719468544, (309045, [301075; 301076; 309031]));
   (68719468544, (309046, [307041; 301075; 301076; 309031]));
   (68719468544, (309047, [307042; 301075; 301076; 309031]));
   (68719468544, (309048, [307043; 301075; 301076; 309031]));
   (68719468544, (309049, [307044; 301075; 301076; 309031]));
   (68719476734, (309050, [301110; 301113; 301114; 101000; 31002; 303050; 101000; 31001; 303051]));
   (68719476734, (309051, [301110; 301113; 301114; 101000; 31002; 303052; 101000; 31001; 303053]));
   (68719476734, (309052, [301111; 301113; 301114; 302049; 22043; 101000; 31002; 303054; 101000; 31001; 303051]));
   (68719476734, (309053, [301112; 301113; 301114; 101000; 31002; 303054; 101000; 31001; 303051]));
   (68719476734, (309054, [301001; 1011; 301011; 301012; 301021; 7030; 7031; 7007; 4023; 4059; 115000; 31001; 8001; 8023; 7004; 10009; 12101; 12103; 8023; 11001; 11002; 8023; 11019; 8050; 8020; 8050; 8020]));
   (68719443968, (309055, [301111; 25061; 1081; 1082; 2067; 2095; 2096; 2097; 2081; 2082; 2084; 2191; 301113; 301114; 10004; 302032; 7032; 2002; 11001; 11002; 7032; 20003; 302049; 22043; 101000; 31002; 303055]));
   (68685922304, (309056, [301150; 301111; 301128; 301113; 8091; 301021; 7007; 8091; 101000; 31002; 303056; 101000; 31001; 303051]));
   (68685922304, (309057, [301150; 301111; 301128; 301113; 301114; 302049; 22043; 101000; 31002; 303056; 101000; 31001; 303051]));
   (68719476734, (309060, [301123; 301121; 302050; 303040]));
   (68719476734, (309061, [301120; 8041; 301122; 201131; 202129; 25069; 7004; 202000; 201000; 33007; 33035; 33015; 13009; 33007; 33035; 33015; 2013; 12101; 33007; 33035; 33015]));
   (68719476734, (309062, [301120; 8041; 301122; 5001; 33035; 33015; 6001; 33035; 33015; 7007; 33035; 33015; 11003; 33035; 33015; 11004; 33035; 33015; 33007]));
   (68719476734, (309063, [301120; 8041; 301122; 5001; 33035; 33015; 6001; 33035; 33015; 7007; 33035; 33015; 11003; 33035; 33015; 11004; 33035; 33015; 33007]));
   (68719476734, (309064, [301120; 8041; 301122; 201131; 202129; 104002; 25069; 7004; 33035; 33015; 13003; 33035; 33015; 202000; 201000; 104002; 2013; 12101; 33035; 33015; 12103; 33035; 33015; 10009; 33035; 33015]));
   (68719476734, (309065, [301120; 8041; 301122; 5001; 33035; 33015; 6001; 33035; 33015; 7007; 33035; 33015; 11003; 33035; 33015; 11004; 33035; 33015]));
   (68719476734, (309066, [301120; 8041; 301122; 8040; 201131; 202129; 25069; 7004; 13003; 202000; 201000; 2013; 12101; 12103; 10009; 10007; 11002; 11001]));
   (3584, (309070, [1035; 1032; 1015; 1062; 301001; 301021; 207001; 10001; 207000; 301011; 301012; 8086; 7030; 25031; 8021; 4014; 10004; 10051; 10009; 20010; 13095; 128000; 31002; 113000; 31000; 8086; 7004; 11001; 11002; 12101; 12102; 12103; 10009; 103000; 31000; 11022; 11021; 11005; 104000; 31000; 8086; 7006; 11001; 11002; 105000; 31000; 8086; 7006; 12101; 12102; 12103]));
   (68719472640, (309070, [1035; 1032; 1015; 1063; 301001; 301011; 301012; 301021; 207001; 10001; 207000; 8086; 7030; 25031; 8021; 4014; 10004; 10051; 10009; 20010; 13095; 128000; 31002; 113000; 31000; 8086; 7004; 11001; 11002; 12101; 12102; 12103; 10009; 103000; 31000; 11021; 11022; 11005; 104000; 31000; 8086; 7006; 11001; 11002; 105000; 31000; 8086; 7006; 12101; 12102; 12103]));
   (68719468544, (309071, [301001; 2014; 2003; 301113; 301114; 301023; 7030; 7007; 103000; 31001; 7009; 11001; 11002]));
   (34359738368, (309072, [301132; 107000; 31001; 3032; 3033; 2106; 102000; 31001; 3032; 12190; 113000; 31001; 8021; 301011; 301013; 8021; 4026; 2134; 2135; 20143; 103000; 31001; 3032; 33021; 12063; 114000; 31001; 8021; 301011; 301013; 8021; 4026; 2134; 2135; 105000; 31001; 3034; 3031; 2106; 33021; 12063]));
   (34359738368, (309073, [301132; 8021; 4026; 13095; 13109; 20013; 8092; 8093; 13095; 13109; 20013; 8092; 8093; 303100; 117000; 31002; 7007; 301021; 33021; 12001; 33021; 13002; 33021; 13003; 8092; 8093; 12001; 13002; 13003; 8092; 8093; 10071; 27079]));
   (618475290624, (309194, [301194; 302004; 101000; 31001; 303014]));
   (618475290624, (309195, [301195; 302004; 101000; 31001; 303014]));
   (618475290624, (309196, [301196; 302004; 101000; 31001; 303014]));
   (618475290624, (309198, [301198; 302004; 101000; 31001; 303014]));
   (68719476735, (310001, [301042; 303031; 303032; 101026; 303025]));
   (68719476735, (310002, [301042; 303031; 303032; 101009; 303023]));
   (68719476735, (310003, [301042; 303031; 303032; 101006; 303023]));
   (68719476735, (310004, [301042; 303031; 303032; 101003; 303024]));
   (68719476735, (310005, [301042; 303031; 303033; 101000; 31001; 303025]));
   (68719476735, (310006, [301042; 303031; 303033; 101000; 31001; 303023]));
   (68719476735, (310007, [301042; 303031; 303033; 101000; 31001; 303024]));
   (68719476735, (310008, [310011; 101019; 310012; 2150; 25079; 25080; 33032; 14045]));
   (68719476735, (310009, [310011; 101015; 310012]));
   (68719476735, (310010, [310011; 101005; 310012]));
   (68719476735, (310011, [8070; 1033; 1034; 8070; 1033; 1034; 1007; 2048; 5040; 25075; 201133; 5041; 201000; 5043; 25070; 33030; 33031; 4001; 4002; 4003; 4004; 4005; 202131; 201138; 4006; 201000; 202000; 5001; 6001; 202126; 7001; 202000; 7024; 5021; 7025; 5022; 33033; 2151; 12064; 2151; 12064; 2151; 12064; 2151; 12064]));
   (68719476735, (310012, [2150; 25076; 25077; 25078; 33032; 201132; 202129; 12063; 202000; 201000]));
   (68719476735, (310013, [1007; 5040; 4001; 4002; 4003; 4004; 4005; 4006; 5001; 6001; 7025; 5043; 25085; 201131; 202129; 2150; 8023; 8072; 14027; 8072; 14027; 2150; 8023; 8072; 14027; 8072; 14027; 2150; 8023; 8072; 14027; 8072; 14027; 202000; 201000; 201132; 202129; 2150; 8023; 8072; 12063; 8072; 12063; 2150; 8023; 8072; 12063; 8072; 12063; 8023; 8072; 12063; 8072; 12063; 2150; 8023; 8072; 12063; 8072; 12063; 202000; 201000]));
   (68719476735, (310014, [301072; 303041; 304011]));
   (68719476735, (310015, [301072; 7024; 10002; 303041; 101003; 304032; 2152; 2024; 7004; 7004; 13003; 101003; 304033]));
   (68719476735, (310016, [301072; 7024; 10002; 303041; 101012; 304032; 2152; 2024; 7004; 7004; 13003; 101012; 304033]));
   (68719476480, (310018, [1007; 5040; 4001; 4043; 4004; 4005; 4006; 207002; 26030; 207000; 5002; 6002; 33072; 7025; 5022; 207002; 15001; 207000; 8003; 207001; 10004; 207000; 8003; 8003; 33042; 207001; 7004; 207000; 207002; 15001; 207000; 8003; 207002; 20081; 207000; 20065; 8029; 207004; 15030; 207000; 8075]));
   (68719476734, (310019, [1007; 2019; 301011; 301013; 301023; 7025; 8021; 7025; 8021; 7025; 8021; 8029; 5040; 8075; 8003; 10004; 8003; 207002; 15001; 207000; 33070; 15030; 207002; 20081; 207000; 8003; 33042; 7004; 207002; 15001; 207000; 8003; 113021; 7004; 7004; 207002; 8021; 15005; 8021; 15005; 33007; 207000; 8026; 101020; 25143; 8026; 8043; 109015; 7004; 8090; 207006; 15008; 207000; 8090; 207002; 33007; 207000; 8043; 33071; 108008; 202124; 201107; 2071; 201000; 202000; 207002; 20081; 207000]));
   (68719476735, (310020, [310022; 301011; 301013; 301021; 304034; 310021]));
   (68719476735, (310021, [108000; 31001; 201131; 202129; 7004; 7004; 202000; 201000; 15020; 10002]));
   (68719476735, (310022, [1007; 2019; 1033; 2172]));
   (68719476735, (310023, [301072; 30021; 30022; 8012; 7024; 7025; 10002; 101012; 304032; 105002; 2152; 2024; 7004; 7004; 13003; 101012; 304033]));
   (68719476735, (310024, [301072; 30021; 30022; 8012; 7024; 7025; 10002; 101003; 304032; 105002; 2152; 2024; 7004; 7004; 13003; 101003; 304033]));
   (68719476734, (310025, [1007; 8021; 4001; 4002; 4003; 4004; 4005; 201138; 202131; 4006; 202000; 201000; 201132; 5041; 201000; 201129; 5043; 201000; 5002; 6002; 13040; 20029; 104024; 5042; 12163; 21083; 21084; 115003; 4001; 4002; 4003; 201142; 202131; 4026; 202000; 201000; 5001; 6001; 201138; 202129; 7001; 202000; 201000; 8021; 4001; 4002; 4003; 4004; 4005; 5040; 101003; 12070; 25054; 101004; 25055; 8007; 104028; 5002; 6002; 2111; 5021]));
   (68719476734, (310026, [310022; 25060; 8021; 301011; 301012; 201138; 202131; 4006; 202000; 201000; 33039; 33007; 304030; 304031; 2020; 1050; 202127; 304030; 202000; 304031; 201133; 202131; 4016; 202000; 201000; 301021; 304030; 10035; 5021; 10036; 113000; 31002; 301021; 5021; 108000; 31001; 2121; 7040; 15037; 8023; 201125; 15037; 201000; 8023; 33007; 108000; 31002; 7007; 15036; 8023; 201123; 15036; 201000; 8023; 33007; 116000; 31002; 7009; 10004; 12001; 13001; 8023; 201120; 10004; 201000; 201122; 12001; 201000; 201123; 13001; 201000; 8023; 33007; 8003; 7009; 10004; 8023; 201120; 10004; 201000; 8023; 33007]));
   (68719476734, (310027, [301071; 301011; 301013; 301021; 30021; 30022; 10002; 304036; 2152; 2167; 101011; 304035]));
   (68719475966, (310028, [301071; 301011; 301013; 301021; 30021; 30022; 10002; 304036; 2152; 2167; 101011; 304037]));
   (68719476734, (310029, [110000; 31001; 201138; 202130; 7004; 7004; 202000; 201000; 15020; 10002; 12101; 13098]));
   (68719476734, (310030, [310022; 301011; 301013; 301021; 304034; 310029]));
   (1, (310050, [310051; 310052; 101000; 31002; 310053; 101004; 310054; 20010; 310052; 101015; 310053; 310052; 101004; 310053]));
   (68719476734, (310050, [310051; 310052; 101000; 31002; 310053; 101004; 310054; 20010; 310052; 101015; 310053; 310052; 101005; 310053]));
   (68719476735, (310051, [1007; 5040; 201133; 5041; 201000; 201132; 25070; 201000; 202126; 7001; 202000; 7025; 5022; 102009; 2151; 12064]));
   (68719476735, (310052, [2019; 301011; 301012; 202131; 201138; 4006; 201000; 202000; 301021; 7024; 5021; 5043]));
   (68719476735, (310053, [201134; 5042; 201000; 25076; 33032; 12163]));
   (68719476735, (310054, [201134; 5042; 201000; 25076; 33032; 201131; 202129; 102002; 8023; 14027; 8023; 202000; 201000]));
   (1, (310055, [310051; 310052; 102020; 25076; 25051; 101000; 31002; 25050]));
   (68719476734, (310055, [310051; 310052; 102020; 25076; 25052; 101000; 31002; 25050]));
   (68719476480, (310060, [1007; 1033; 2019; 2020; 301011; 301012; 207003; 4006; 207000; 304030; 301021; 7024; 5021; 7025; 5022; 8075; 201133; 5041; 201000; 5045; 5043; 5040; 10001; 201129; 7002; 201000; 202127; 201125; 21166; 201000; 202000; 8012; 20010; 20014; 2165; 33075; 107003; 8076; 6029; 6029; 25140; 25141; 33076; 33077; 8076; 33078; 33003; 104000; 31002; 201133; 5042; 201000; 14044]));
   (256, (310061, [1007; 1033; 1034; 2019; 2020; 301011; 301012; 207003; 4006; 207000; 5040; 5041; 5043; 33079; 33080; 33078; 301021; 201129; 7002; 201000; 7024; 5021; 7025; 5022; 25075; 107000; 31002; 5042; 2153; 2154; 2104; 12066; 12163; 33081]));
   (68719476224, (310061, [1007; 1033; 1034; 2019; 2020; 301011; 301012; 207003; 4006; 207000; 5040; 5041; 5043; 33079; 33080; 33078; 301021; 201129; 7002; 201000; 7024; 5021; 7025; 5022; 25075; 111000; 31002; 5042; 202131; 2153; 2154; 202000; 2104; 12066; 12163; 12158; 12159; 33081]));
   (68719475712, (310062, [1007; 1033; 1034; 2019; 2020; 301011; 301012; 207003; 4006; 207000; 5040; 201133; 5041; 5043; 201000; 8076; 33082; 301021; 201129; 7002; 201000; 7024; 5021; 7025; 5022; 8072; 8029; 105000; 31002; 5042; 2155; 33083; 14043; 15042]));
   (68719468544, (310063, [1007; 1033; 1034; 2019; 2020; 301011; 301012; 207003; 4006; 207000; 5040; 201133; 5041; 5043; 201000; 33082; 301021; 201129; 7002; 201000; 7024; 5021; 7025; 5022; 8075; 8013; 8072; 33084; 7062; 33086; 22043; 7062; 7062; 33086; 22043]));
   (68719443968, (310064, [1007; 1033; 1034; 2019; 2020; 301011; 301012; 207003; 4006; 207000; 5040; 201133; 5041; 5043; 201000; 33082; 301021; 201129; 7002; 201000; 7024; 5021; 7025; 5022; 8075; 8029; 8046; 33085; 33086; 15049; 33086; 102011; 2155; 15062]));
   (68719443968, (310065, [1007; 1033; 1034; 2019; 2020; 301011; 301012; 207003; 4006; 207000; 5040; 33082; 301021; 201129; 7002; 201000; 7024; 5021; 7025; 5022; 8075; 33071; 33070; 20021; 15045; 15046; 8065; 33087; 8003; 10004; 8003; 207002; 15001; 207000; 105012; 10040; 10004; 207003; 15005; 207000; 8046; 107019; 10040; 10004; 8090; 207006; 15008; 207000; 8090]));
   (68719443968, (310066, [1007; 1033; 1034; 2019; 2020; 301011; 301012; 207003; 4006; 207000; 5040; 33082; 301021; 201129; 7002; 201000; 7024; 5021; 7025; 5022; 8075; 20081; 207004; 15030; 207000; 20065; 15041; 33086; 33087; 33088; 8003; 207001; 7004; 207000; 8003; 207002; 15001; 207000; 8003; 33042; 207001; 7004; 207000; 207002; 15001; 207000; 8003; 1032; 207002; 15001; 207000]));
   (68711088128, (310067, [1033; 1034; 25061; 25062; 1007; 2153; 1012; 201138; 2026; 2027; 201000; 2028; 2029; 2161; 2164; 2023; 8012; 8013; 1124; 5001; 6001; 4001; 4002; 4003; 4004; 4005; 4006; 4086; 11001; 11002; 11003; 11004; 2162; 7004; 12001; 20014; 7024; 1023; 104000; 31001; 2162; 7004; 12001; 20014; 113000; 31001; 4086; 2020; 1007; 2019; 5042; 2153; 5040; 7024; 5021; 2162; 7004; 12001; 20014; 119000; 31001; 4086; 4086; 5001; 6001; 11003; 11004; 11113; 25148; 103000; 31001; 8023; 11003; 11004; 8023; 103000; 31001; 20111; 20112; 20114; 1033; 8021; 11095; 11096; 7004; 8021; 11095; 11096; 7004; 8021; 8086; 11095; 11096; 7004; 8086; 102004; 1032; 33007; 8092; 11003; 11004; 7004; 8092; 33066; 20081; 20012; 20056; 117000; 31001; 8023; 20016; 8092; 8003; 12001; 8003; 20016; 8092; 25149; 20016; 20014; 13093; 13109; 40038; 8011; 14050; 8011; 8023]));
   (68702699520, (310068, [8070; 1033; 1034; 1007; 2019; 12064; 5040; 201136; 5041; 201000; 5043; 301011; 301012; 201138; 202131; 4006; 202000; 201000; 5001; 6001; 202126; 7001; 202000; 10007; 7024; 5021; 7025; 5022; 13040; 12101; 201131; 202129; 11011; 202000; 201000; 201130; 202129; 11012; 202000; 201000; 20029; 20010; 20014; 13162; 14050]));
   (68702699520, (310069, [5042; 201139; 2155; 201000; 25077; 25078; 33007; 201132; 202129; 12063; 202000; 201000]));
   (68702699520, (310070, [310068; 101013; 310069]));
   (68702699520, (310071, [310068; 101015; 310069]));
   (68702699520, (310072, [310068; 101026; 310069]));
   (68685922304, (310077, [1033; 1034; 25061; 25062; 1007; 2153; 1012; 201138; 2026; 2027; 201000; 2028; 2029; 2161; 2164; 2023; 8012; 8013; 1124; 5001; 6001; 4001; 4002; 4003; 4004; 4005; 4006; 4086; 2162; 7004; 11001; 11002; 11003; 11004; 12001; 20014; 7024; 1023; 104000; 31001; 2162; 7004; 12001; 20014; 113000; 31001; 4086; 2020; 1007; 2019; 5042; 2153; 5040; 7024; 5021; 2162; 7004; 12001; 20014; 119000; 31001; 4086; 4086; 5001; 6001; 11003; 11004; 11113; 25148; 103000; 31001; 8023; 11003; 11004; 8023; 103000; 31001; 20111; 20112; 20114; 1033; 8021; 7004; 11095; 11096; 8021; 7004; 11095; 11096; 8021; 8086; 7004; 11095; 11096; 8086; 102004; 1044; 33007; 8092; 7004; 11003; 11004; 8092; 33066; 20081; 20012; 20056; 117000; 31001; 8023; 20016; 8092; 8003; 12001; 8003; 20016; 8092; 25149; 20016; 20014; 13093; 13109; 40038; 8011; 14050; 8011; 8023]));
   (51539607552, (310078, [1007; 1016; 2019; 2020; 1033; 1034; 301011; 301013; 5040; 201132; 5041; 201000; 5043; 33079; 33080; 33078; 7002; 102003; 8097; 12164; 117000; 31001; 5001; 6001; 7024; 5021; 7025; 5022; 109000; 31001; 5042; 2153; 2154; 2104; 12066; 12163; 12158; 12159; 33094]));
   (51539607552, (310080, [1033; 1034; 1007; 2019; 5040; 25061; 201133; 5041; 201000; 301011; 301012; 207003; 4006; 207000; 202126; 7001; 202000; 5063; 5064; 5066; 5077; 6043; 6041; 6042; 8098; 12101; 8098; 12101; 8098; 12101; 8098; 12101; 8098; 7074; 5076; 201124; 202127; 25084; 202000; 201000; 33100; 33102; 33104; 33105; 113007; 5078; 5001; 6001; 7024; 5021; 7025; 5022; 7073; 201132; 202129; 21166; 202000; 201000; 117003; 5042; 202131; 2153; 2154; 202000; 25077; 25078; 33101; 33103; 2104; 201131; 202136; 14045; 202000; 201000; 12158; 12159; 117002; 5042; 202131; 2153; 2154; 202000; 25077; 25078; 33101; 33103; 2104; 201132; 202136; 14045; 202000; 201000; 12158; 12159; 117003; 5042; 202131; 2153; 2154; 202000; 25077; 25078; 33101; 33103; 2104; 201133; 202136; 14045; 202000; 201000; 12158; 12159; 117003; 5042; 202131; 2153; 2154; 202000; 25077; 25078; 33101; 33103; 2104; 201133; 202136; 14045; 202000; 201000; 12158; 12159; 117002; 5042; 202131; 2153; 2154; 202000; 25077; 25078; 33101; 33103; 2104; 201131; 202135; 14045; 202000; 201000; 12158; 12159]));
   (51539607552, (310081, [1033; 1034; 1007; 2019; 5040; 25061; 201133; 5041; 201000; 301011; 301012; 207003; 4006; 207000; 202126; 7001; 202000; 5063; 5064; 5066; 5077; 6043; 6041; 6042; 8098; 12101; 8098; 12101; 8098; 12101; 8098; 12101; 8098; 7074; 5076; 201124; 202127; 25084; 202000; 201000; 33095; 33097; 33106; 33099; 113008; 5078; 5001; 6001; 7024; 5021; 7025; 5022; 7073; 201132; 202129; 21166; 202000; 201000; 117002; 5042; 202131; 2153; 2154; 202000; 25077; 25078; 33096; 33098; 2104; 201131; 202138; 14045; 202000; 201000; 12158; 12159; 117002; 5042; 202131; 2153; 2154; 202000; 25077; 25078; 33096; 33098; 2104; 201132; 202138; 14045; 202000; 201000; 12158; 12159; 117002; 5042; 202131; 2153; 2154; 202000; 25077; 25078; 33096; 33098; 2104; 201132; 202138; 14045; 202000; 201000; 12158; 12159; 117008; 5042; 202131; 2153; 2154; 202000; 25077; 25078; 33096; 33098; 2104; 201131; 202137; 14045; 202000; 201000; 12158; 12159; 117002; 5042; 202131; 2153; 2154; 202000; 25077; 25078; 33096; 33098; 2104; 201132; 202137; 14045; 202000; 201000; 12158; 12159; 117004; 5042; 202131; 2153; 2154; 202000; 25077; 25078; 33096; 33098; 2104; 201133; 202137; 14045; 202000; 201000; 12158; 12159; 117001; 5042; 202131; 2153; 2154; 202000; 25077; 25078; 33096; 33098; 2104; 201131; 202136; 14045; 202000; 201000; 12158; 12159; 117005; 5042; 202131; 2153; 2154; 202000; 25077; 25078; 33096; 33098; 2104; 201131; 202136; 14045; 202000; 201000; 12158; 12159]));
   (51539607552, (310082, [8070; 1033; 1034; 1007; 2019; 5040; 25061; 201133; 5041; 201000; 5043; 6042; 301011; 301012; 207003; 4006; 207000; 301021; 107002; 5080; 201132; 202129; 21166; 202000; 201000; 7007; 202126; 7001; 202000; 7024; 5021; 7025; 5022; 201124; 202127; 25084; 202000; 201000; 7073; 12070; 12064; 8098; 12101; 8098; 33107; 33108; 33109; 118024; 5042; 104004; 5079; 202130; 2154; 202000; 2104; 2153; 25077; 25078; 207002; 12063; 207000; 207001; 33089; 33090; 207000; 33110]));
   (51539607552, (310083, [1033; 1034; 25060; 1007; 2019; 127012; 5040; 201130; 6034; 201000; 5034; 301021; 8012; 301011; 301012; 4007; 8085; 3030; 2104; 3030; 2104; 3029; 8075; 202129; 201131; 2111; 201000; 202000; 5021; 21062; 21026; 21027; 33111]));
   (51539607552, (310084, [1033; 1034; 25060; 1007; 2019; 5040; 6034; 5034; 301021; 301011; 301012; 4007; 14058; 33112; 117005; 8085; 8012; 3030; 2104; 3030; 2104; 8075; 202129; 201131; 2111; 201000; 202000; 5021; 21062; 21026; 21027; 25056]));
   (51539607552, (310085, [1007; 301005; 2019; 2020; 4001; 4002; 4003; 4004; 4005; 202131; 201138; 4006; 201000; 202000; 5001; 6001; 7024; 5021; 7025; 5022; 5043; 5040; 201133; 5041; 201000; 202126; 7001; 202000; 33113; 105170; 104100; 201137; 5042; 201000; 14046; 2019; 110007; 5060; 5061; 20083; 106020; 5042; 8023; 14044; 8023; 14044; 8023; 8072; 20083; 8029; 20083]));
   (51539607552, (310086, [1007; 301005; 2019; 2020; 4001; 4002; 4003; 4004; 4005; 202131; 201138; 4006; 201000; 202000; 5001; 6001; 7024; 5021; 7025; 5022; 5043; 5040; 201133; 5041; 201000; 202126; 7001; 202000; 33113; 109004; 25140; 201129; 25141; 201000; 40026; 40016; 101000; 31002; 40017; 2019; 110007; 5060; 5061; 20083; 106020; 5042; 8023; 14044; 8023; 14044; 8023; 8072; 20083; 8029; 20083]));
   (34359738368, (310087, [1007; 1031; 2019; 2020; 4001; 4002; 4003; 4004; 4005; 202131; 201138; 4006; 201000; 202000; 5001; 6001; 7024; 5021; 7025; 5022; 5043; 5040; 201133; 5041; 201000; 202126; 7001; 202000; 40052; 40047; 8065; 204004; 31021; 2019; 2019; 1030; 204000; 2019; 40046; 33116; 33117; 40080; 40051; 8003; 21166; 22046; 10001; 8023; 10001; 8023; 8003]));
   (34359738368, (310088, [310087; 40053; 102003; 8071; 25149; 106000; 31000; 101000; 31002; 40076; 101000; 31002; 40075; 40067; 40066; 202126; 13098; 202000; 107101; 202131; 201138; 7004; 201000; 202000; 12101; 13001]));
   (34359738368, (310089, [310087; 12083; 8043; 40044; 8043; 20056; 13109; 20056; 13109; 8003; 109002; 20056; 20081; 202131; 201138; 20016; 201000; 202000; 12101; 20131]));
   (34359738368, (310090, [310087; 8003; 40067; 40066; 102012; 5042; 14050; 12001; 202131; 201138; 10004; 201000; 202000; 8003; 12083; 11012; 8043; 40044; 8043]));
   (34359738368, (310091, [310087; 104003; 8043; 102007; 7004; 15021]));
   (34359738368, (310092, [1007; 25060; 1031; 2019; 2020; 4001; 4002; 4003; 4004; 4005; 202131; 201138; 4006; 201000; 202000; 5001; 6001; 7024; 5021; 7025; 5022; 5043; 5040; 201133; 5041; 201000; 202126; 10007; 202000]));
   (34359738368, (310093, [310092; 8046; 15021; 40056; 40058; 40059; 40060; 40057; 103019; 40061; 40062; 40063; 101190; 40065]));
   (34359738368, (310094, [310092; 8046; 15021; 40056; 40058; 40059; 40060; 40057; 103041; 40061; 40062; 40063; 102021; 101041; 40065]));
   (34359738368, (310095, [310092; 8046; 40068; 10073; 15007; 12169; 102005; 7004; 15007]));
   (34359738368, (310096, [301005; 1007; 2019; 2020; 25060; 301011; 301013; 5040; 5001; 6001; 202126; 7001; 202000; 7024; 5021; 7025; 5022; 33028]));
   (34359738368, (310097, [310096; 8011; 33007; 8011; 8072; 8029]));
   (34359738368, (310098, [310096; 13094; 20016; 20014; 8093; 13094; 20016; 20014; 8093]));
   (34359738368, (310099, [310096; 25144; 25145; 20139; 8029; 120002; 8002; 13094; 20016; 12001; 202131; 201139; 20131; 201000; 202000; 20014; 8093; 13094; 20016; 202131; 201139; 20131; 201000; 202000; 20014; 8093]));
   (34359738368, (310100, [310096; 202129; 201132; 13060; 201000; 202000; 33118; 33119]));
   (51539607552, (310191, [1007; 1033; 1034; 2019; 2020; 301011; 301012; 207003; 4006; 207000; 7024; 5021; 7025; 5022; 102002; 8076; 301021; 201131; 5041; 201000; 5045; 201133; 5043; 201000; 202126; 201132; 7001; 201000; 202000; 25182; 2165; 108002; 8076; 6029; 6029; 25140; 25141; 33076; 33077; 25187; 8076; 105000; 31002; 201133; 5042; 201000; 14044; 14049]));
   (618475290624, (310193, [301250; 303250; 302250; 303249; 303251]));
   (618475290624, (310194, [301250; 303250; 302250; 303249; 303252]));
   (618475290624, (310195, [301250; 303250; 304250]));
   (274877906944, (310195, [310196; 101006; 310197]));
   (274877906944, (310196, [8070; 1033; 1034; 8070; 1033; 1034; 1007; 2019; 5040; 25075; 201133; 5041; 201000; 5043; 25070; 33192; 33193; 4001; 4002; 4003; 4004; 4005; 202131; 201138; 4006; 201000; 202000; 5001; 6001; 202126; 7001; 202000; 7024; 5021; 7025; 5022; 25081; 33195; 2151; 12064; 2151; 12064; 2151; 12064; 2151; 12064]));
   (618475290624, (310196, [301250; 303249; 303251]));
   (274877906944, (310197, [2150; 25076; 25077; 25078; 33196; 33197; 8065; 13040; 201132; 202129; 12063; 202000; 201000]));
   (618475290624, (310226, [310022; 25060; 8021; 301011; 301012; 201138; 202131; 4006; 202000; 201000; 33039; 33007; 304030; 304031; 2020; 1050; 202127; 304030; 202000; 304031; 201133; 202131; 4016; 202000; 201000; 301021; 304030; 10035; 5021; 10036; 107000; 31002; 301021; 5021; 103000; 31001; 2121; 7040; 15037]));
   (68719476735, (311001, [301051; 7002; 12001; 11001; 11002; 11031; 11032; 11033; 20041]));
   (68719476735, (311002, [301065; 301066; 311003; 311004]));
   (68719476735, (311003, [10070; 11001; 11002; 12001; 13002]));
   (68719476735, (311004, [101000; 31000; 11034; 101000; 31000; 11035; 101000; 31000; 11075; 101000; 31000; 11076; 101000; 31000; 33025; 101000; 31000; 33026]));
   (68719476734, (311005, [1008; 1023; 301021; 301011; 301013; 7010; 8009; 11001; 11002; 11031; 11036; 12101; 33025]));
   (68719476734, (311006, [7010; 11001; 11002; 2064; 12101; 12103]));
   (68719476734, (311007, [7010; 301021; 11001; 11002; 2064; 12101; 12103]));
   (68719476734, (311008, [1008; 301011; 301013; 301021; 8004; 101000; 31001; 311006]));
   (68719476734, (311009, [1008; 301011; 301013; 301021; 8004; 101000; 31001; 311007]));
   (1792, (311010, [1008; 1023; 1006; 1110; 1111; 1112; 204002; 31021; 301011; 301013; 301021; 7004; 10053; 8009; 11001; 11002; 2064; 11100; 11101; 11102; 11103; 11104; 12101; 13002; 13003; 101000; 31000; 12103; 33026; 101000; 31000; 20042; 103000; 31000; 20043; 20044; 20045; 101000; 31000; 33025; 103000; 31001; 11075; 11076; 11039; 102000; 31000; 11037; 11077; 103000; 31000; 11034; 11035; 11036; 204000; 118000; 31001; 301021; 7007; 301013; 11105; 204007; 31021; 11076; 11075; 204000; 11106; 11107; 11108; 11109; 12101; 11001; 201130; 11084; 201000]));
   (68719472640, (311010, [1008; 1023; 1006; 1110; 1111; 1112; 204002; 31021; 301011; 301013; 301021; 7010; 10053; 8009; 11001; 11002; 2064; 11100; 11101; 11102; 11103; 11104; 12101; 2170; 201144; 202133; 13002; 202000; 201000; 201135; 202130; 13003; 202000; 201000; 101000; 31000; 12103; 33026; 101000; 31000; 20042; 103000; 31000; 20043; 20044; 20045; 101000; 31000; 33025; 103000; 31001; 11075; 11076; 11039; 102000; 31000; 11037; 11077; 103000; 31000; 11034; 11035; 11036; 204000; 119000; 31001; 301011; 301013; 301021; 7007; 11105; 204007; 31021; 11076; 11075; 204000; 11106; 11107; 11108; 11109; 12101; 11001; 201130; 11084; 201000]));
   (68719472640, (311011, [1023; 8004; 301011; 301013; 5002; 6002; 7004; 11001; 11002; 12101; 106000; 31001; 8046; 201139; 202126; 15026; 202000; 201000; 106000; 31001; 8046; 201138; 202130; 15026; 202000; 201000; 15052; 15053; 15054; 15055; 7004; 7004; 13099; 13100; 13101]));
   (68585259008, (311012, [301150; 1008; 1111; 1112; 301011; 301013; 301021; 8004; 110000; 31002; 301011; 301013; 311007; 201144; 202133; 13002; 202000; 201000; 13003; 33026]));
   (34359738368, (311013, [301150; 1008; 1095; 301011; 301013; 301021; 1013; 8009; 7010; 33003; 11001; 11002; 12101; 2170; 201144; 202133; 13002; 202000; 201000; 201135; 202130; 13003; 202000; 201000; 11073; 11075]));
   (618475290624, (311193, [301197; 301011; 301012; 301023; 8004; 7004; 8021; 11001; 11002; 11031; 11034; 11035; 12001; 12003; 13003; 20041]));
   (68719476735, (312001, [301043; 304001]));
   (68719476735, (312002, [301043; 304002]));
   (68719476735, (312003, [301042; 304003]));
   (68719476735, (312004, [301042; 304004]));
   (68719476735, (312005, [301042; 20014]));
   (68719476735, (312006, [301044; 304005]));
   (68719476735, (312007, [301042; 304006]));
   (68719476735, (312010, [1007; 5040; 2021; 5041; 4001; 4043]));
   (68719476735, (312011, [202131; 201149; 4006; 201000; 202126; 10002; 202000; 5043; 5053]));
   (68719476735, (312012, [202129; 201132; 101019; 12063; 201000; 202000]));
   (1, (312013, [5033; 202129; 201135; 12063; 201000; 202000]));
   (68719476734, (312013, [5042; 202129; 201135; 12063; 201000; 202000]));
   (68719476735, (312014, [312010; 312011; 105056; 301023; 5042; 5052; 312012; 312013]));
   (68719476735, (312015, [109011; 301023; 5042; 5052; 202129; 201132; 101004; 12063; 202000; 201000]));
   (68719476735, (312016, [312010; 312011; 312015]));
   (68719476735, (312017, [109008; 301023; 5042; 5052; 202129; 201132; 101003; 12063; 202000; 201000]));
   (68719476735, (312018, [312010; 312011; 312017]));
   (68719476734, (312019, [301047; 301048; 15015; 29002; 21076; 106012; 201129; 6030; 201000; 102012; 5030; 21075; 21066]));
   (68719476735, (312020, [301047; 301048; 15015; 29002; 21076; 104012; 6030; 102012; 5030; 21075; 21066]));
   (68719476735, (312021, [301047; 101003; 301049; 11012; 11011; 21067]));
   (68719476735, (312022, [301047; 8022; 11012; 11050; 22070; 22026; 312041; 10050; 21068; 21071; 21072; 21073; 312042; 21062; 15011]));
   (68719476735, (312023, [301047; 103003; 8022; 12061; 22050; 21069; 21085]));
   (68719476735, (312024, [312020; 8060; 8022; 8060; 8022; 25014; 22101; 22097; 22098; 22099; 22100]));
   (68719476734, (312025, [312019; 8060; 8022; 8060; 8022; 25014; 22101; 22097; 22098; 22099; 22100]));
   (68719476735, (312026, [301046; 301011; 301013; 301023; 312031; 101004; 312030; 21110; 301023; 321027; 21111; 301023; 321027; 21112; 301023; 321027; 21113; 301023; 321027]));
   (68719476735, (312027, [301047; 105009; 301023; 7021; 12061; 7021; 12061; 21085; 21070]));
   (68719476735, (312028, [301046; 301011; 301013; 301023; 8025; 201136; 4006; 201000; 312031; 312032; 101004; 312030; 101002; 312033; 21110; 301023; 321028; 21111; 301023; 321028; 21112; 301023; 321028; 21113; 301023; 321028]));
   (68182605824, (312029, [301046; 301011; 301013; 301023; 8025; 201136; 4006; 201000; 5034; 201129; 6034; 201000; 33055; 11081; 11082; 21101; 21102; 21103; 312032; 101004; 312030; 101002; 312033; 21110; 301023; 321028; 21111; 301023; 321028; 21112; 301023; 321028; 21113; 301023; 321028]));
   (68719476735, (312030, [201130; 202129; 11012; 202000; 201000; 11052; 201135; 202130; 11011; 202000; 201000; 11053; 21104]));
   (68719476735, (312031, [5034; 6034; 21109; 11081; 11082; 21101; 21102; 21103]));
   (68719476735, (312032, [21120; 21121; 13055; 21122]));
   (68719476735, (312033, [2104; 8022; 12063; 12065]));
   (68182605824, (312034, [301046; 301011; 301013; 301023; 8025; 201136; 4006; 201000; 312031; 312032; 101004; 312030; 101002; 312033; 103018; 21110; 301023; 321028]));
   (68182605824, (312035, [1007; 1031; 2048; 202124; 2026; 2027; 202000; 5040; 4001; 4002; 4003; 4004; 4005; 4006; 5002; 6002; 5034; 6031; 201129; 6034; 201000; 5021; 2111; 12063; 21095; 21096; 21097; 21030; 21105; 33056]));
   (68719476735, (312041, [201141; 202130; 7001; 201000; 202000]));
   (68719476735, (312042, [21077; 21078; 21079; 21080; 21081; 21082]));
   (68719476734, (312045, [1007; 2019; 1096; 25061; 5040; 301011; 301013; 301021; 7002; 12180; 12181; 12182; 12183; 12184; 12185; 2174; 21086; 12186; 21087; 12187; 33043]));
   (68719476734, (312050, [1007; 2019; 1096; 25061; 5040; 301011; 301013; 301021; 7025; 5022; 10080; 27080; 8003; 7004; 13093; 8003; 201131; 202129; 7004; 7004; 202000; 201000; 13095]));
   (68719476734, (312051, [1007; 2019; 1096; 25061; 5040; 8075; 301011; 301013; 301021; 1012; 201131; 1013; 201000; 10032; 10033; 10034; 7002; 8012; 25110; 25111; 25102; 2104; 25103; 25104; 25105; 25106; 25107; 25108; 2111; 2121; 2026; 2027; 21130; 21131; 21132; 21133; 21064; 25014; 21134; 107018; 5030; 105024; 201130; 6030; 201000; 21135; 21136; 33044]));
   (68719476734, (312052, [1007; 2019; 1096; 25061; 5040; 25120; 25121; 25124; 25125; 25122; 25123; 301011; 301013; 301021; 7002; 2119; 33047; 10081; 10082; 10083; 10084; 2116; 2117; 2118; 2156; 2157; 14055; 22150; 22151; 22152; 22153; 22154; 22155; 22156; 22157; 22158; 22159; 21137; 21138; 21139; 21140; 21141; 21142; 10085; 10086; 10087; 10088; 10089; 10090; 10091; 10092; 10093; 11002; 25126; 25127; 25128; 25129; 25130; 25131; 25132; 25133; 25134; 25135; 25136; 25137; 13096; 13097; 11095; 11096; 12188; 12189; 2158; 2159; 33052; 33053; 21143; 21144]));
   (68719476734, (312053, [1007; 2019; 1096; 25061; 5040; 8075; 301011; 301013; 301021; 1012; 201131; 1013; 201000; 10032; 10033; 10034; 7002; 8012; 25110; 25111; 25102; 2104; 25103; 25104; 25105; 25106; 25107; 25108; 11001; 11002; 22160; 25138; 201130; 202129; 22021; 202000; 201000; 33048; 33049; 2026; 2027; 21130; 21131; 21132; 21133; 25014; 106036; 5030; 104024; 201130; 6030; 201000; 22161; 33044]));
   (68719476734, (312055, [5033; 5040; 6034; 10095; 21157]));
   (68719476734, (312056, [25060; 1032; 11082; 11081; 20095; 20096; 21155; 201133; 21101; 21102; 201000]));
   (68719476734, (312057, [201130; 202129; 11012; 202000; 201000; 201131; 202129; 11011; 202000; 201000; 21156; 21104]));
   (68719476734, (312058, [301125; 301011; 301013; 301021; 312055; 21150; 101003; 321030]));
   (68719476734, (312059, [312056; 101000; 31001; 312057]));
   (1022, (312060, [25060; 25062; 40001; 40002; 21062; 21151; 21152; 21153; 21154; 21062; 21062; 40003; 40004; 40005; 40006; 40007; 20065; 40008; 40009; 40010]));
   (68719475712, (312060, [25060; 25062; 40001; 40002; 21062; 21151; 21152; 21153; 21154; 21062; 21088; 40003; 40004; 40005; 40006; 40007; 20065; 40008; 40009; 40010]));
   (68719476734, (312061, [312058; 312060; 312059]));
   (60129542144, (312062, [1007; 2019; 301011; 301013; 301021; 20065; 8023; 20065; 8023]));
   (68719476734, (312070, [1007; 2019; 1144; 1124; 30010; 301011; 301013; 301021; 7012; 15012; 12165; 12166; 12167; 12168; 27010; 28010; 2099; 13048; 25081; 25082; 25083; 25084; 12080; 12081; 12082; 25174; 33028]));
   (68719468544, (312071, [1007; 2019; 2139; 1096; 1040; 25061; 5040; 5044; 8075; 8077; 4001; 4002; 4003; 4004; 4005; 4006; 5001; 6001; 10081; 22156; 22142; 101020; 22149; 22143; 22144; 21137; 101020; 21181; 21138; 21180; 21177; 21178; 21179; 10079; 10085; 10086; 10087; 10089; 10090; 10091; 10092; 10093; 11097; 21093; 101020; 21182; 33053; 22151; 22145; 22148; 22146; 22147; 25126; 25128; 25127; 21176; 25132; 25133; 25182; 25183; 25180; 25184; 25181; 33080]));
   (618475290624, (312200, [301237; 301238; 29002; 21206; 104012; 6232; 102012; 5232; 21205; 21196]));
   (618475290624, (312201, [301237; 101003; 301239; 11012; 11011; 21197]));
   (618475290624, (312202, [301237; 8022; 11012; 11050; 301240; 22243; 301241; 10050; 21198; 21201; 21202; 21203; 301242]));
   (618475290624, (312203, [301237; 8022; 12061; 22050; 21204; 21199; 21214; 21215]));
   (68719476736, (312204, [312201; 1031; 11012; 11011; 21200; 21213; 4004; 8021; 4024; 55003; 11012; 11011]));
   (618475290624, (312207, [312202; 301202; 33191]));
   (618475290624, (312208, [301202; 8022; 8021; 301011; 301013; 301023; 302205; 11002; 1007; 2021; 301011; 301013; 301023; 1032; 1192; 302205; 11002]));
   (618475290624, (312209, [301202; 1192; 301011; 301013; 301023; 302206; 104000; 22192; 102000; 5232; 22191]));
   (618475290624, (312210, [312202; 21192; 15202; 301011; 4004; 4005; 201138; 202131; 4006; 201000; 202000; 304228; 304229]));
   (618475290624, (312211, [301046; 301011; 301013; 301023; 312031; 101004; 312030; 21110; 101004; 312212; 21111; 101004; 312212; 21112; 101004; 312212; 21113; 101004; 312212]));
   (618475290624, (312212, [301023; 321027]));
   (68719476735, (313009, [21001; 101000; 31001; 21001]));
   (68719476735, (313010, [21036; 101000; 31001; 21036]));
   (68719476735, (313031, [6002; 6012; 101000; 31002; 30001]));
   (68719476735, (313032, [5002; 5012; 101000; 31002; 313031]));
   (68719476735, (313041, [6002; 110000; 31001; 104000; 31001; 6012; 101000; 31012; 30001; 6012; 101000; 31001; 30001]));
   (68719476735, (313042, [5002; 5012; 101000; 31002; 313041]));
   (68719476734, (313043, [6002; 5002; 5012; 112000; 31001; 110000; 31001; 104000; 31001; 6012; 101000; 31011; 30001; 6012; 101000; 31001; 30001]));
   (1, (313043, [6002; 5002; 5012; 112000; 31001; 110000; 31001; 104000; 31001; 6012; 101000; 31011; 30001; 101000; 31001; 30001]));
   (68719476735, (315001, [1011; 301011; 301012; 301023; 306001]));
   (68719476735, (315002, [1011; 301011; 301012; 301023; 306004]));
   (68719476734, (315003, [1087; 1085; 1086; 2036; 2148; 2149; 22055; 22056; 22067; 301011; 301012; 301021; 8080; 33050; 109000; 31002; 7065; 8080; 33050; 22045; 8080; 33050; 22064; 8080; 33050]));
   (68719468544, (315004, [1079; 1011; 1103; 1087; 1019; 1080; 5036; 1036; 1013; 1012; 301011; 301012; 301021; 7032; 7033; 2002; 11002; 11001; 7032; 7033; 12101; 12103; 7032; 7033; 302021; 2031; 2030; 22005; 22032; 22063; 8080; 33050; 22178; 22177; 22067; 8041; 26021; 26022; 26023; 22068; 25061; 8041; 8080; 2171; 302090; 2171; 2032; 315005]));
   (68719472384, (315005, [106000; 31002; 7063; 8080; 33050; 22043; 8080; 33050]));
   (3840, (315006, [1011; 301011; 301012; 301023; 306032]));
   (68719411200, (315007, [301003; 1019; 1103; 1087; 1036; 1115; 1080; 5036; 301011; 301012; 301021; 1079; 1023; 22063; 101000; 31000; 302001; 101000; 31000; 302021; 101000; 31000; 302052; 101000; 31000; 302059; 22067; 2171; 302090; 306033; 306034; 2171; 22067; 2038; 22067; 22068; 2171; 2033; 2032; 22056; 3011; 306035; 107000; 31000; 2032; 3010; 2031; 2040; 22056; 3011; 306036; 104000; 31000; 2032; 3012; 3011; 306037]));
   (68719411200, (315008, [301126; 306038; 101000; 31000; 302091; 101000; 31000; 302082; 101000; 31000; 306039; 101000; 31000; 306040; 102000; 31000; 2005; 306041; 102000; 31000; 2005; 306004; 101000; 31000; 306005]));
   (68719411200, (315009, [1087; 1019; 2149; 8021; 301011; 301012; 301021; 208016; 1051; 208000; 2148; 1012; 1014; 33022; 33023; 33027; 25026; 2034; 22060; 7070; 2190; 8021; 301011; 301012; 2005; 22043; 2033; 22059; 8029; 13115; 103000; 31000; 2005; 306004; 2005; 10004; 10051; 102000; 31000; 7033; 12101; 101000; 31000; 306042; 101000; 31000; 306039]));
   (68585259008, (315010, [112000; 31001; 201144; 202133; 22080; 22096; 22069; 202000; 201000; 42011; 42012; 42013; 42014; 42015]));
   (68182605824, (315011, [301150; 1087; 1036; 1085; 1086; 3001; 208032; 1079; 208000; 301011; 301012; 301021; 1012; 1014; 11104; 103000; 31000; 7031; 306038; 12161; 101000; 31000; 306034; 101000; 31000; 306039; 101000; 31000; 306033; 101000; 31000; 306041; 101000; 31000; 306004; 101000; 31000; 306005; 105000; 31000; 41001; 8043; 15028; 8043; 13080; 104000; 31000; 41005; 41003; 22188; 41002; 101000; 31000; 306040; 104000; 31000; 8021; 4025; 14017; 14018]));
   (51539607552, (315012, [301150; 201129; 1087; 201000; 1019; 1036; 2148; 1085; 1086; 8021; 301011; 301013; 301021; 11104; 2169; 11002; 11001; 2169; 22032; 22005; 301011; 301013; 8021; 4025; 301021; 22031; 22004; 8021; 5068; 1079; 126000; 31001; 22056; 123000; 31002; 301011; 301013; 301021; 8080; 33050; 7062; 8080; 33050; 22065; 8080; 33050; 22045; 8080; 33050; 22066; 8080; 33050; 22064; 8080; 33050; 42016; 8080; 33050]));
   (67645734912, (315013, [301150; 1087; 208032; 1019; 208000; 3001; 22067; 1051; 2148; 112000; 31001; 8021; 301011; 301012; 301021; 1012; 1014; 33022; 33023; 33027; 7063; 22045; 8021; 107000; 31001; 301011; 301012; 301021; 1079; 1023; 22056; 306035]));
   (60129542144, (315023, [301150; 201129; 1087; 201000; 208032; 1019; 208000; 3001; 22067; 1051; 2148; 112000; 31001; 8021; 301011; 301012; 301021; 1012; 1014; 33022; 33023; 33027; 7063; 22045; 8021; 107000; 31001; 301011; 301012; 301021; 1079; 1023; 22056; 306035]));
   (68719476735, (316001, [301011; 4004; 301023; 1021; 2041; 19001; 10051; 19002; 19003; 19004]));
   (68719476735, (316002, [8021; 4001; 4002; 4003; 4004; 4005; 1033; 8021; 4001; 4002; 4003; 4004; 4005; 7002; 7002]));
   (68719476735, (316003, [110000; 31001; 8011; 8007; 104000; 31001; 5002; 6002; 10002; 11002; 8007; 8011]));
   (68719476735, (316004, [111000; 31001; 8011; 8007; 7002; 7002; 102000; 31001; 5002; 6002; 11031; 8007; 8011]));
   (68719476735, (316005, [108000; 31001; 8005; 8007; 5002; 6002; 1026; 19001; 8007; 8005]));
   (68719476735, (316006, [112000; 31001; 8011; 8007; 7002; 7002; 102000; 31001; 5002; 6002; 20011; 20012; 8007; 8011]));
   (68719476735, (316007, [110000; 31001; 8011; 8007; 104000; 31001; 5002; 6002; 19005; 19006; 8007; 8011]));
   (68719476735, (316008, [111000; 31001; 8001; 8007; 8023; 103000; 31001; 5002; 6002; 10002; 8023; 8007; 8001]));
   (68719476735, (316009, [111000; 31001; 8011; 8007; 7002; 7002; 102000; 31001; 5002; 6002; 20041; 8007; 8011]));
   (68719476735, (316010, [107000; 31001; 8011; 8007; 1022; 5002; 6002; 8007; 8011]));
   (1, (316011, [116000; 31001; 8011; 1022; 8007; 102000; 31001; 5002; 6002; 8021; 4001; 4002; 4003; 4004; 4005; 20090; 8021; 8007; 8011]));
   (68719476734, (316011, [117000; 31001; 8011; 1022; 8007; 102000; 31001; 5002; 6002; 8021; 4001; 4002; 4003; 4004; 4005; 20090; 8021; 8007; 8011]));
   (1022, (316020, [1023; 1025; 1027; 301011; 301012]));
   (68719468544, (316020, [1033; 1025; 1027; 301011; 301012]));
   (68719469566, (316021, [301023; 2041; 19001; 19007; 19005; 19006; 19008; 8005; 10004; 8005; 10004; 19007; 8005; 8021; 4075; 11040; 19007; 105004; 5021; 5021; 102002; 19003; 19004]));
   (68719476734, (316022, [1032; 2041; 19001; 19010; 118000; 31001; 8021; 4014; 8005; 301023; 19005; 19006; 10004; 11041; 8021; 4075; 11040; 19008; 105004; 5021; 5021; 102002; 19003; 19004]));
   (68719469566, (316026, [316020; 316021]));
   (68719468544, (316027, [316020; 316022]));
   (68719476734, (316030, [301014; 1037; 10064; 8019; 1062; 8019; 1065; 8019; 1062; 8019]));
   (68719476734, (316031, [8021; 301011; 301012; 301027; 19005; 19006; 20028; 8021]));
   (68719476734, (316032, [8021; 301011; 301012; 301027; 8021]));
   (68719476734, (316033, [8021; 301011; 301012; 101000; 31001; 301027; 8021]));
   (68719476734, (316034, [8079; 316030; 8011; 1022; 8007; 301023; 8007; 20090; 316031; 101000; 31000; 316032; 101000; 31001; 316033; 8011; 8079]));
   (68719476734, (316035, [8079; 316030; 8011; 20023; 20021; 20008; 316031; 8011; 8079]));
   (68719476734, (316036, [8079; 316030; 8011; 1027; 316031; 101000; 31000; 316032; 101000; 31001; 316033; 8011; 8079]));
   (68719476734, (316037, [8079; 316030; 8011; 11031; 316031; 8011; 8079]));
   (68719476734, (316038, [8079; 316030; 8011; 20041; 20021; 316031; 8011; 8079]));
   (68719476734, (316039, [8079; 316030; 8011; 20024; 316031; 8011; 8079]));
   (68719476734, (316040, [316030; 8079; 301014; 1037; 10064; 8079]));
   (68719476734, (316050, [301001; 301011; 301012; 2160; 8005; 5002; 6002; 8005; 19100; 19005; 19006; 19101; 19102; 19103; 19104; 19105]));
   (68719476734, (316052, [301005; 301011; 301012; 1007; 25150; 122000; 31001; 1027; 19150; 19106; 8005; 5002; 6002; 8005; 19107; 19005; 19006; 19108; 19109; 19110; 19111; 19112; 19113; 19114; 19115; 19116; 19117; 19118; 19119]));
   (68719468544, (316060, [301011; 301012; 5002; 6002; 19005; 19006; 5002; 6002; 5002; 6002; 4074; 20048; 11041; 13055]));
   (68719468544, (316061, [301011; 301012; 5002; 6002; 19005; 19006; 102000; 31001; 5002; 6002; 102000; 31001; 5002; 6002; 4074; 20048; 11041; 13055]));
   (68719476480, (316071, [301014; 101000; 31002; 316075; 101000; 31002; 316076]));
   (68719476480, (316072, [301014; 101000; 31002; 316077; 101000; 31002; 316078; 101000; 31002; 316079]));
   (68719476480, (316073, [301014; 101000; 31002; 316080; 101000; 31002; 316081]));
   (68719476480, (316074, [1039; 8021; 301014; 301027; 8021]));
   (68719476480, (316075, [8079; 8041; 316074; 20006; 33042; 20013; 33042; 20001; 20025; 20026; 8041; 8079]));
   (68719476480, (316076, [8079; 8041; 316074; 20006; 20025; 20026; 8041; 8079]));
   (68719476480, (316077, [8079; 8011; 316074; 11031; 8011; 8079]));
   (68719476480, (316078, [8079; 8041; 316074; 33042; 11012; 8041; 8079]));
   (68719476480, (316079, [8079; 8011; 316074; 20023; 20024; 8011; 8079]));
   (68719476480, (316080, [8079; 8011; 316074; 20041; 8011; 8079]));
   (68719476480, (316081, [8079; 8041; 316074; 8041; 8079]));
   (68182605824, (316082, [1033; 1034; 1032; 1025; 1027; 1090; 1091; 1092; 301011; 301012; 8005; 301023; 8005; 301023; 10051; 8005; 301023; 11012; 107003; 19003; 105004; 5021; 5021; 201131; 19004; 201000; 116000; 31001; 8021; 4024; 8005; 301023; 10051; 8005; 301023; 11012; 107003; 19003; 105004; 5021; 5021; 201131; 19004; 201000]));
   (68719476735, (318001, [301025; 24011]));
   (68719476735, (318003, [301026; 24005; 24004; 24021]));
   (68719476735, (318004, [301025; 4023; 13011; 24005; 24004; 24022]));
   (68719476735, (321001, [2101; 2114; 2105; 2106; 2107; 2121]));
   (68719476735, (321003, [21051; 21014; 21017; 21030]));
   (68719476735, (321004, [301031; 2003; 101000; 31001; 321003]));
   (68719476735, (321005, [25004; 2121; 2122; 2123; 2124; 2125; 2126; 2127; 2128; 2129; 2130; 2131]));
   (68719476735, (321006, [25001; 25002; 25003; 25005]));
   (68719476735, (321007, [25009; 25010; 25011; 25012; 25013; 25015; 25016; 25017]));
   (68719476735, (321008, [25006; 25007; 25008]));
   (68719476735, (321009, [25018; 25019]));
   (68719476735, (321010, [2101; 7002; 2102; 2103; 2104; 2105; 2106; 2107; 2108; 2109; 2110; 2132; 2133]));
   (68719476735, (321011, [30031; 30032; 29002]));
   (68719476735, (321012, [101000; 31001; 2135]));
   (68719476735, (321021, [2003; 2101; 201130; 2106; 201000; 201132; 202130; 2121; 202000; 201000; 201133; 202129; 25001; 202000; 201000]));
   (68719476734, (321022, [7007; 204001; 31021; 11001; 204000; 11002; 204001; 31021; 11006; 204000; 21030]));
   (1, (321022, [10007; 204001; 31021; 11001; 204000; 11002; 204001; 31021; 11006; 204000; 21030]));
   (68719476735, (321023, [7007; 21091; 21030; 202129; 21014; 201129; 21017; 202000; 201000]));
   (68719476734, (321024, [7007; 204001; 31021; 12007; 11006; 204000; 21030]));
   (1, (321024, [7007; 204002; 31021; 12007; 11006; 204000; 21030]));
   (68719476735, (321025, [7007; 21091; 21030; 202129; 21014; 201129; 21017; 202000; 201000; 21092; 21030; 25092; 201129; 202129; 21017; 202000; 201000]));
   (68719476734, (321026, [7007; 204001; 31021; 12007; 25091; 11071; 11072; 11073; 11074; 204000]));
   (1, (321026, [10007; 204001; 31021; 12007; 25091; 11071; 11072; 11073; 11074; 204000]));
   (68719476735, (321027, [21118; 202129; 201132; 2112; 201000; 201131; 2111; 201000; 202000; 2104; 21105; 21106; 21107; 21114; 21115; 21116; 8018; 21117]));
   (68719476735, (321028, [21118; 202129; 201132; 2112; 201000; 201131; 2111; 201000; 202000; 2104; 21123; 21106; 21107; 21114; 21115; 21116; 8018; 21117]));
   (68719476734, (321030, [8085; 202129; 201131; 2111; 201000; 202000; 2134; 21062; 21063; 21158; 21159; 21160; 21161; 21162; 21163; 21164; 21165; 21166]));
   (64424509440, (321031, [1007; 2019; 1033; 1034; 301011; 301013; 301021; 10033; 8043; 25139; 2153; 106000; 31002; 7071; 21007; 21008; 21009; 21010; 33003]));
   (51539607552, (322001, [310022; 301011; 301013; 301021; 5041; 5043; 27080; 5022; 13040; 20010; 33085; 33115; 105002; 8099; 7024; 7025; 7075; 7076; 106000; 31001; 2071; 8043; 15024; 8043; 15024; 15042; 224000; 236000; 101000; 31002; 31031; 1033; 1032; 8023; 101000; 31002; 224255]));
   (68719476480, (322028, [1007; 2019; 4001; 4002; 4003; 4004; 4005; 4006; 5001; 6001; 27001; 28001; 27001; 28001; 27001; 28001; 27001; 28001; 10001; 14019; 7025; 10080; 5023; 20010; 8003; 7004; 14026; 20014; 13093; 105000; 31001; 7004; 7004; 8043; 8044; 15021]));
   (68719476734, (340001, [1007; 1031; 2019; 2020; 4001; 4002; 4003; 4004; 4005; 202131; 201138; 4006; 201000; 202000; 5001; 6001; 7024; 5021; 7025; 5022; 5043; 5040; 201133; 5041; 201000; 201132; 25070; 201000; 202126; 7001; 202000; 33060; 33061; 33062; 33063; 33064; 33065; 101010; 340002; 101087; 340003; 2019; 25051; 101007; 340004]));
   (68719476734, (340002, [25140; 25141; 25142]));
   (68719476734, (340003, [104100; 201136; 5042; 201000; 14046]));
   (68719476734, (340004, [5060; 5061; 25085; 105006; 5042; 25142; 14047; 25142; 14048]));
   (68719475712, (340005, [1007; 2019; 1096; 25061; 5044; 5040; 1030; 4001; 4002; 4003; 4004; 4005; 4007; 5001; 6001; 8029; 8074; 8077; 40011; 25097; 25095; 25098; 25099; 21144; 25096; 40012; 40013; 21169; 22151; 22162; 22163; 25160; 25133; 22156; 22164; 22165; 22166; 21137; 21138; 22167; 21139; 21118; 21145; 21146; 21147; 22168; 22169; 22170; 25161; 25162; 22171; 22172; 22173; 22174; 21170; 21171; 22175; 21172; 21118; 21173; 21174; 21175; 2153; 12063; 2153; 12063; 2153; 12063; 13090; 13091; 7002; 11097; 11098; 7002; 11095; 11096; 10096; 10081; 10082; 10083; 10101; 25132; 25163; 25126; 25128; 25164; 10085; 10097; 10086; 10087; 10092; 10088; 10089; 10098; 10099; 10090; 10100; 10093; 25127; 40014]));
   (1022, (340005, [1007; 2019; 1096; 25061; 5044; 5040; 1030; 301011; 301012; 4007; 5001; 6001; 8029; 8074; 8077; 40011; 25097; 25095; 25098; 25099; 21144; 25096; 40012; 40013; 21169; 22151; 22162; 22163; 25160; 25133; 22156; 22164; 22165; 22166; 21137; 21138; 22167; 21139; 21118; 21145; 21146; 21147; 22168; 22169; 22170; 25161; 25162; 22171; 22172; 22173; 22174; 21170; 21171; 22175; 21172; 21118; 21173; 21174; 21175; 102003; 2153; 12063; 13090; 13091; 7002; 11097; 11098; 7002; 11095; 11096; 10096; 10081; 10082; 10083; 10101; 25132; 25163; 25126; 25128; 25164; 10085; 10097; 10086; 10087; 10092; 10088; 10089; 10098; 10099; 10090; 10100; 10093; 25127; 40014]));
   (68719476734, (340007, [1007; 1031; 2019; 2020; 4001; 4002; 4003; 4004; 4005; 202131; 201138; 4006; 201000; 202000; 5001; 6001; 7024; 5021; 7025; 5022; 5043; 5040; 201133; 5041; 201000; 201132; 25070; 201000; 202126; 7001; 202000; 103003; 25140; 25141; 33060; 33061; 33062; 33063; 33064; 33065; 40020; 101010; 340002; 101087; 340003; 2019; 25051; 101007; 340004; 20081; 8029; 20083; 8029; 40018; 40019; 40021; 40022]));
   (254, (340008, [1007; 1031; 2019; 2020; 4001; 4002; 4003; 4004; 4005; 202131; 201138; 4006; 201000; 202000; 5001; 6001; 7024; 5021; 7025; 5022; 5043; 5040; 201133; 5041; 201000; 201132; 25070; 201000; 202126; 7001; 202000; 103003; 25140; 25141; 33060; 33061; 33062; 33063; 33064; 33065; 40020; 101010; 340002; 104000; 31002; 201136; 5042; 201000; 14046; 2019; 25051; 101007; 340004; 20081; 8029; 20083; 8029; 40018; 40019; 40021; 40022]));
   (768, (340008, [1007; 1031; 2019; 2020; 4001; 4002; 4003; 4004; 4005; 202131; 201138; 4006; 201000; 202000; 5001; 6001; 7024; 5021; 7025; 5022; 5043; 5040; 201133; 5041; 201000; 201132; 25070; 201000; 202126; 7001; 202000; 103003; 25140; 25141; 33060; 33061; 33062; 33063; 33064; 33065; 40020; 101010; 340002; 104000; 31002; 201136; 5042; 201000; 14046; 108003; 25140; 25141; 40015; 40016; 25062; 101000; 31002; 40017; 2019; 25051; 101007; 340004; 20081; 8029; 20083; 8029; 40018; 40019; 40021; 40022]));
   (68719475712, (340008, [1007; 1031; 2019; 2020; 4001; 4002; 4003; 4004; 4005; 202131; 201138; 4006; 201000; 202000; 5001; 6001; 7024; 5021; 7025; 5022; 5043; 5040; 201133; 5041; 201000; 201132; 25070; 201000; 202126; 7001; 202000; 103003; 25140; 25141; 33060; 33061; 33062; 33063; 33064; 33065; 40020; 101010; 340002; 104000; 31002; 201136; 5042; 201000; 14046; 108003; 25140; 25141; 40026; 40016; 25062; 101000; 31002; 40017; 2019; 25051; 101007; 340004; 20081; 8029; 20083; 8029; 40018; 40019; 40021; 40022]));
   (68719476480, (340009, [1007; 1031; 2019; 2020; 301011; 301013; 5040; 201136; 5041; 201000; 25071; 5001; 5001; 6001; 6001; 107064; 106032; 8012; 8013; 8065; 8072; 13039; 40015]));
   (1024, (340010, [1007; 2019; 1096; 25061; 5044; 5040; 1030; 4001; 4002; 4003; 4004; 4005; 4007; 5001; 6001; 8029; 8074; 8077; 40011; 25097; 25095; 25098; 25099; 21144; 25096; 40012; 40013; 21169; 40023; 40024; 40025; 22151; 22162; 22163; 25160; 25133; 22156; 22164; 22165; 22166; 21137; 21138; 22167; 21139; 21118; 21145; 21146; 21147; 22168; 22169; 22170; 25161; 25162; 22171; 22172; 22173; 22174; 21170; 21171; 22175; 21172; 21118; 21173; 21174; 21175; 2153; 12063; 2153; 12063; 2153; 12063; 13090; 13091; 7002; 11097; 11098; 7002; 11095; 11096; 10096; 10081; 10082; 10083; 10101; 25132; 25163; 25126; 25128; 25164; 10085; 10097; 10086; 10087; 10092; 10088; 10089; 10098; 10099; 10090; 10100; 10093; 25127; 40014]));
   (68719474688, (340010, [1007; 2019; 1096; 25061; 5044; 5040; 1030; 4001; 4002; 4003; 4004; 4005; 4007; 5001; 6001; 8029; 8074; 8077; 40011; 25097; 25095; 25098; 25099; 21144; 25096; 40012; 40013; 21169; 40023; 40024; 40025; 22151; 22162; 22163; 25160; 25133; 22156; 22164; 22165; 22166; 21137; 21138; 22167; 21139; 21118; 21145; 21146; 21147; 22168; 22169; 22170; 25161; 25162; 22171; 22172; 22173; 22174; 21170; 21171; 22175; 21172; 21118; 21173; 21174; 21175; 2153; 12063; 2153; 12063; 2153; 12063; 13090; 13091; 7002; 11097; 11098; 7002; 11095; 11096; 10096; 10081; 10082; 10083; 10101; 25132; 25163; 25126; 25128; 25164; 10085; 10097; 10086; 10087; 10092; 10088; 10089; 10098; 10099; 10090; 10100; 10093; 25127; 40014; 10102]));
   (768, (340010, [1007; 2019; 1096; 25061; 5044; 5040; 1030; 301011; 301012; 4007; 301021; 8029; 8074; 8077; 40011; 25097; 25095; 25098; 25099; 21144; 25096; 40012; 40013; 21169; 40023; 40024; 40025; 22151; 22162; 22163; 25160; 25133; 22156; 22164; 22165; 22166; 21137; 21138; 22167; 21139; 21118; 21145; 21146; 21147; 22168; 22169; 22170; 25161; 25162; 22171; 22172; 22173; 22174; 21170; 21171; 22175; 21172; 21118; 21173; 21174; 21175; 102003; 2153; 12063; 13090; 13091; 7002; 11097; 11098; 7002; 11095; 11096; 10096; 10081; 10082; 10083; 10101; 25132; 25163; 25126; 25128; 25164; 10085; 10097; 10086; 10087; 10092; 10088; 10089; 10098; 10099; 10090; 10100; 10093; 25127; 40014; 10102]));
   (68719345664, (340011, [1007; 2019; 1096; 25061; 5044; 5040; 1030; 4001; 4002; 4003; 4004; 4005; 4007; 5001; 6001; 8029; 8077; 40011; 25097; 25112; 25113; 21148; 21169; 40024; 40025; 2153; 22189; 22191; 22130; 25167; 25166; 22190; 22131; 22132; 22133; 21183; 21184; 22134; 21185; 21118; 21186; 21187; 21188; 2153; 12063; 2153; 12063; 13090; 13160; 7002; 11097; 7002; 11095; 11096; 10096; 10081; 10082; 10083; 10101; 2153; 25165; 25126; 25128; 25164; 10085; 10086; 10087; 10092; 10088; 10089; 10098; 10099; 10090; 10100; 10093; 25127; 40014; 10102]));
   (68718952448, (340012, [1007; 2019; 8091; 5001; 6001; 7002; 5063; 5064; 5066; 5041; 5067; 301011; 301012; 4007; 8091; 5001; 6001; 107000; 31001; 5042; 2153; 2104; 40028; 7024; 40027; 12063]));
   (68718428160, (340013, [1007; 2019; 1033; 1034; 4001; 4002; 4003; 4004; 4005; 4007; 5068; 5070; 5069; 40036; 8091; 5001; 6001; 4016; 8091; 5001; 6001; 4016; 8091; 5001; 6001; 4016; 8091; 7071; 5021; 7021; 40035; 8091; 7071; 5021; 7021; 40035; 8091; 7071; 5021; 7021; 40035; 40029; 40030; 40031; 25187; 10004; 12001; 40037; 40032; 40033; 40034]));
   (68711088128, (340015, [1007; 2019; 301011; 301012; 4007; 201133; 5041; 201000; 201130; 5043; 201000; 207001; 5002; 6002; 207000; 40027; 13040; 21120; 207003; 102003; 2186; 13155; 207000; 33003]));
   (68685922304, (340016, [301129; 301130; 301131; 202134; 7001; 202000; 101000; 31002; 340002; 101000; 31002; 304039; 101000; 31002; 304040]));
   (68685922304, (340017, [1007; 2019; 5044; 1096; 5040; 1040; 25061; 25182; 25183; 25181; 25184; 301011; 301013; 4007; 301021; 5063; 5064; 5066; 10081; 10082; 8075; 25090; 8029; 201137; 202129; 6021; 202000; 201000; 10087; 25096; 40012; 8077; 104002; 2153; 12063; 12065; 40013; 7002; 11098; 13090; 13091; 25164; 25095; 40023; 25113; 8074; 25190; 21144; 25191; 21143; 13055; 21169; 10101; 15012; 7002; 11097; 40024; 7002; 25126; 25128; 40011; 7002; 11095; 11096; 10088; 10089; 10090; 10092; 10093; 10098; 10099; 10100; 25127; 40014; 10085; 10086; 10096; 10103; 10102; 22080; 8076; 22189; 22191; 22130; 25165; 25166; 25167; 21183; 21184; 22134; 21122; 22190; 22131; 22132; 22133; 21186; 21187; 21188; 21185; 25112; 25113; 33092; 8076; 22189; 22191; 22130; 25165; 25166; 25167; 21183; 21184; 22134; 21122; 22190; 22131; 22132; 22133; 21186; 21187; 21188; 21185; 25112; 25113; 33092; 25190; 11097; 13090; 13091; 21143; 21184; 25128; 25163; 25164; 10102; 22189; 22191; 22130; 25166; 21183; 21184; 22134; 22190; 22131; 22132; 25112; 25113; 33092; 8049; 22080; 134021; 301011; 301013; 4007; 301021; 10081; 10082; 8029; 201137; 202129; 6021; 202000; 201000; 25191; 21071; 10085; 40011; 10102; 22189; 22146; 25165; 25167; 21183; 22190; 22133; 21177; 21185; 13164; 202126; 22046; 202000; 13117; 13013; 25112; 33092]));
   (68182605824, (340018, [301129; 301130; 301131; 7072; 40074; 104000; 31002; 201136; 5042; 201000; 14044]));
   (68182605824, (340019, [340020; 340021; 340022; 340023]));
   (68182605824, (340020, [1007; 2019; 5044; 1096; 5040; 1040; 25061; 25182; 25183; 25181; 25184; 8075; 25090; 301011; 301013; 4007; 301021; 5063; 5064; 5066; 10081; 10082]));
   (68182605824, (340021, [40012; 8077; 104000; 31001; 2153; 12063; 12065; 40013; 7002; 11098]));
   (68182605824, (340022, [8029; 201137; 202129; 6021; 202000; 201000; 10087; 40024; 7002; 25126; 25128; 40011; 7002; 11095; 11096; 10088; 10089; 10090; 10092; 10093; 10098; 10099; 10100; 25127; 40014; 1030; 10085; 1030; 10085; 10086; 10096; 10103; 21169; 13055; 25165]));
   (68182605824, (340023, [25095; 40023; 8074; 340024; 340024; 340024; 340025]));
   (68182605824, (340024, [22080; 8076; 25190; 10102; 22189; 22191; 22130; 25167; 25163; 15012; 25164; 13090; 13091; 25166; 7002; 11097; 21183; 21184; 22134; 21122; 21186; 21187; 21188; 201131; 21185; 201000; 22179; 22131; 22132; 22133; 21144; 25191; 21143; 10101; 25112; 25113; 33092]));
   (68182605824, (340025, [8049; 22080; 8076; 25190; 146021; 301011; 301013; 4007; 301021; 10081; 10082; 8029; 201137; 202129; 6021; 202000; 201000; 25191; 21071; 1030; 10085; 1030; 10085; 40011; 10088; 10089; 25164; 7002; 25126; 25128; 10102; 22189; 25167; 25163; 21183; 201131; 21185; 201000; 22179; 22133; 22146; 21189; 13163; 202126; 22046; 202000; 13117; 13013; 25112; 25113; 33092]));
   (64424509440, (340026, [1007; 2019; 1033; 1034; 301011; 301013; 301021; 10033; 8043; 25139; 2155; 112000; 31002; 7071; 33003; 201136; 15074; 15066; 15075; 15068; 201000; 15076; 15070; 15078; 15072; 107003; 5069; 104000; 31002; 201135; 15073; 15064; 201000]));
   (34359738368, (340027, [1007; 2019; 2020; 5077; 6043; 1033; 1034; 301011; 301012; 4007; 301021; 33003; 8090; 20140; 8090; 20141]));
   (34359738368, (340028, [8070; 1033; 1034; 1007; 2019; 5040; 25075; 5041; 5043; 301011; 301013; 5001; 6001; 201133; 7071; 201000; 7024; 5021; 7025; 5022; 110000; 31001; 5042; 33002; 25076; 25077; 25078; 201143; 12163; 201000; 12158; 12159]));
   (412316860416, (340192, [1007; 2019; 1033; 1034; 4001; 4002; 4003; 4004; 4005; 4007; 5234; 5236; 5237; 40214; 8201; 5001; 6001; 4016; 8201; 5001; 6001; 4016; 8201; 5001; 6001; 4016; 8201; 7200; 5021; 7021; 40215; 8201; 7200; 5021; 7021; 40215; 8201; 7200; 5021; 7021; 40215; 40216; 40217; 40218; 25192; 10004; 12001; 40219; 40220; 40221; 40222]))].
