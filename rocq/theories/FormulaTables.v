(** Tables of /repo/xlrd/formula.py: token sizes 96-115, function table 121-383,
    error texts biffh.py:92-100, operator rules 725-744. *)
From Verif Require Import Base Text SheetObjects.

(** formula.py:100-104; -1 means variable, -2 not in this version. *)
Definition sztab0 : list Z := [-2; 4; 4; 1; 1; 1; 1; 1; 1; 1; 1; 1; 1; 1; 1; 1; 1; 1; 1; 1; 1; 1; 1; -1; -2; -1; 8; 4; 2; 2; 3; 9; 8; 2; 3; 8; 4; 7; 5; 5; 5; 2; 4; 7; 4; 7; 2; 2; -2; -2; -2; -2; -2; -2; -2; -2; 3; -2; -2; -2; -2; -2; -2; -2].
Definition sztab1 : list Z := [-2; 5; 5; 1; 1; 1; 1; 1; 1; 1; 1; 1; 1; 1; 1; 1; 1; 1; 1; 1; 1; 1; 1; -1; -2; -1; 11; 5; 2; 2; 3; 9; 9; 2; 3; 11; 4; 7; 7; 7; 7; 3; 4; 7; 4; 7; 3; 3; -2; -2; -2; -2; -2; -2; -2; -2; 3; -2; -2; -2; -2; -2; -2; -2].
Definition sztab2 : list Z := [-2; 5; 5; 1; 1; 1; 1; 1; 1; 1; 1; 1; 1; 1; 1; 1; 1; 1; 1; 1; 1; 1; 1; -1; -2; -1; 11; 5; 2; 2; 3; 9; 9; 3; 4; 11; 4; 7; 7; 7; 7; 3; 4; 7; 4; 7; 3; 3; -2; -2; -2; -2; -2; -2; -2; -2; -2; -2; -2; -2; -2; -2; -2; -2].
Definition sztab3 : list Z := [-2; 5; 5; 1; 1; 1; 1; 1; 1; 1; 1; 1; 1; 1; 1; 1; 1; 1; 1; 1; 1; 1; 1; -1; -2; -1; -2; -2; 2; 2; 3; 9; 9; 3; 4; 15; 4; 7; 7; 7; 7; 3; 4; 7; 4; 7; 3; 3; -2; -2; -2; -2; -2; -2; -2; -2; -2; 25; 18; 21; 18; 21; -2; -2].
Definition sztab4 : list Z := [-2; 5; 5; 1; 1; 1; 1; 1; 1; 1; 1; 1; 1; 1; 1; 1; 1; 1; 1; 1; 1; 1; 1; -1; -1; -1; -2; -2; 2; 2; 3; 9; 9; 3; 4; 5; 5; 9; 7; 7; 7; 3; 5; 9; 5; 9; 3; 3; -2; -2; -2; -2; -2; -2; -2; -2; -2; 7; 7; 11; 7; 11; -2; -2].

(** formula.py:106-115 *)
Definition szdict (bv : Z) : result (list Z) :=
  if (bv =? 20) || (bv =? 21) then Ok sztab0
  else if bv =? 30 then Ok sztab1
  else if (bv =? 40) || (bv =? 45) then Ok sztab2
  else if (bv =? 50) || (bv =? 70) then Ok sztab3
  else if bv =? 80 then Ok sztab4
  else Err KeyError.

(** formula.py:121-383: index, name, least and greatest number of arguments. *)
Definition func_defs : list (Z * (list Z * Z * Z)) :=
  [(0, (s2l "COUNT", 0, 30)); (1, (s2l "IF", 2, 3)); (2, (s2l "ISNA", 1, 1));
   (3, (s2l "ISERROR", 1, 1)); (4, (s2l "SUM", 0, 30)); (5, (s2l "AVERAGE", 1, 30));
   (6, (s2l "MIN", 1, 30)); (7, (s2l "MAX", 1, 30)); (8, (s2l "ROW", 0, 1));
   (9, (s2l "COLUMN", 0, 1)); (10, (s2l "NA", 0, 0)); (11, (s2l "NPV", 2, 30));
   (12, (s2l "STDEV", 1, 30)); (13, (s2l "DOLLAR", 1, 2)); (14, (s2l "FIXED", 2, 3));
   (15, (s2l "SIN", 1, 1)); (16, (s2l "COS", 1, 1)); (17, (s2l "TAN", 1, 1));
   (18, (s2l "ATAN", 1, 1)); (19, (s2l "PI", 0, 0)); (20, (s2l "SQRT", 1, 1));
   (21, (s2l "EXP", 1, 1)); (22, (s2l "LN", 1, 1)); (23, (s2l "LOG10", 1, 1));
   (24, (s2l "ABS", 1, 1)); (25, (s2l "INT", 1, 1)); (26, (s2l "SIGN", 1, 1));
   (27, (s2l "ROUND", 2, 2)); (28, (s2l "LOOKUP", 2, 3)); (29, (s2l "INDEX", 2, 4));
   (30, (s2l "REPT", 2, 2)); (31, (s2l "MID", 3, 3)); (32, (s2l "LEN", 1, 1));
   (33, (s2l "VALUE", 1, 1)); (34, (s2l "TRUE", 0, 0)); (35, (s2l "FALSE", 0, 0));
   (36, (s2l "AND", 1, 30)); (37, (s2l "OR", 1, 30)); (38, (s2l "NOT", 1, 1));
   (39, (s2l "MOD", 2, 2)); (40, (s2l "DCOUNT", 3, 3)); (41, (s2l "DSUM", 3, 3));
   (42, (s2l "DAVERAGE", 3, 3)); (43, (s2l "DMIN", 3, 3)); (44, (s2l "DMAX", 3, 3));
   (45, (s2l "DSTDEV", 3, 3)); (46, (s2l "VAR", 1, 30)); (47, (s2l "DVAR", 3, 3));
   (48, (s2l "TEXT", 2, 2)); (49, (s2l "LINEST", 1, 4)); (50, (s2l "TREND", 1, 4));
   (51, (s2l "LOGEST", 1, 4)); (52, (s2l "GROWTH", 1, 4)); (56, (s2l "PV", 3, 5));
   (57, (s2l "FV", 3, 5)); (58, (s2l "NPER", 3, 5)); (59, (s2l "PMT", 3, 5));
   (60, (s2l "RATE", 3, 6)); (61, (s2l "MIRR", 3, 3)); (62, (s2l "IRR", 1, 2));
   (63, (s2l "RAND", 0, 0)); (64, (s2l "MATCH", 2, 3)); (65, (s2l "DATE", 3, 3));
   (66, (s2l "TIME", 3, 3)); (67, (s2l "DAY", 1, 1)); (68, (s2l "MONTH", 1, 1));
   (69, (s2l "YEAR", 1, 1)); (70, (s2l "WEEKDAY", 1, 2)); (71, (s2l "HOUR", 1, 1));
   (72, (s2l "MINUTE", 1, 1)); (73, (s2l "SECOND", 1, 1)); (74, (s2l "NOW", 0, 0));
   (75, (s2l "AREAS", 1, 1)); (76, (s2l "ROWS", 1, 1)); (77, (s2l "COLUMNS", 1, 1));
   (78, (s2l "OFFSET", 3, 5)); (82, (s2l "SEARCH", 2, 3)); (83, (s2l "TRANSPOSE", 1, 1));
   (86, (s2l "TYPE", 1, 1)); (92, (s2l "SERIESSUM", 4, 4)); (97, (s2l "ATAN2", 2, 2));
   (98, (s2l "ASIN", 1, 1)); (99, (s2l "ACOS", 1, 1)); (100, (s2l "CHOOSE", 2, 30));
   (101, (s2l "HLOOKUP", 3, 4)); (102, (s2l "VLOOKUP", 3, 4)); (105, (s2l "ISREF", 1, 1));
   (109, (s2l "LOG", 1, 2)); (111, (s2l "CHAR", 1, 1)); (112, (s2l "LOWER", 1, 1));
   (113, (s2l "UPPER", 1, 1)); (114, (s2l "PROPER", 1, 1)); (115, (s2l "LEFT", 1, 2));
   (116, (s2l "RIGHT", 1, 2)); (117, (s2l "EXACT", 2, 2)); (118, (s2l "TRIM", 1, 1));
   (119, (s2l "REPLACE", 4, 4)); (120, (s2l "SUBSTITUTE", 3, 4)); (121, (s2l "CODE", 1, 1));
   (124, (s2l "FIND", 2, 3)); (125, (s2l "CELL", 1, 2)); (126, (s2l "ISERR", 1, 1));
   (127, (s2l "ISTEXT", 1, 1)); (128, (s2l "ISNUMBER", 1, 1)); (129, (s2l "ISBLANK", 1, 1));
   (130, (s2l "T", 1, 1)); (131, (s2l "N", 1, 1)); (140, (s2l "DATEVALUE", 1, 1));
   (141, (s2l "TIMEVALUE", 1, 1)); (142, (s2l "SLN", 3, 3)); (143, (s2l "SYD", 4, 4));
   (144, (s2l "DDB", 4, 5)); (148, (s2l "INDIRECT", 1, 2)); (162, (s2l "CLEAN", 1, 1));
   (163, (s2l "MDETERM", 1, 1)); (164, (s2l "MINVERSE", 1, 1)); (165, (s2l "MMULT", 2, 2));
   (167, (s2l "IPMT", 4, 6)); (168, (s2l "PPMT", 4, 6)); (169, (s2l "COUNTA", 0, 30));
   (183, (s2l "PRODUCT", 0, 30)); (184, (s2l "FACT", 1, 1)); (189, (s2l "DPRODUCT", 3, 3));
   (190, (s2l "ISNONTEXT", 1, 1)); (193, (s2l "STDEVP", 1, 30)); (194, (s2l "VARP", 1, 30));
   (195, (s2l "DSTDEVP", 3, 3)); (196, (s2l "DVARP", 3, 3)); (197, (s2l "TRUNC", 1, 2));
   (198, (s2l "ISLOGICAL", 1, 1)); (199, (s2l "DCOUNTA", 3, 3)); (204, (s2l "USDOLLAR", 1, 2));
   (205, (s2l "FINDB", 2, 3)); (206, (s2l "SEARCHB", 2, 3)); (207, (s2l "REPLACEB", 4, 4));
   (208, (s2l "LEFTB", 1, 2)); (209, (s2l "RIGHTB", 1, 2)); (210, (s2l "MIDB", 3, 3));
   (211, (s2l "LENB", 1, 1)); (212, (s2l "ROUNDUP", 2, 2)); (213, (s2l "ROUNDDOWN", 2, 2));
   (214, (s2l "ASC", 1, 1)); (215, (s2l "DBCS", 1, 1)); (216, (s2l "RANK", 2, 3));
   (219, (s2l "ADDRESS", 2, 5)); (220, (s2l "DAYS360", 2, 3)); (221, (s2l "TODAY", 0, 0));
   (222, (s2l "VDB", 5, 7)); (227, (s2l "MEDIAN", 1, 30)); (228, (s2l "SUMPRODUCT", 1, 30));
   (229, (s2l "SINH", 1, 1)); (230, (s2l "COSH", 1, 1)); (231, (s2l "TANH", 1, 1));
   (232, (s2l "ASINH", 1, 1)); (233, (s2l "ACOSH", 1, 1)); (234, (s2l "ATANH", 1, 1));
   (235, (s2l "DGET", 3, 3)); (244, (s2l "INFO", 1, 1)); (247, (s2l "DB", 4, 5));
   (252, (s2l "FREQUENCY", 2, 2)); (261, (s2l "ERROR.TYPE", 1, 1)); (269, (s2l "AVEDEV", 1, 30));
   (270, (s2l "BETADIST", 3, 5)); (271, (s2l "GAMMALN", 1, 1)); (272, (s2l "BETAINV", 3, 5));
   (273, (s2l "BINOMDIST", 4, 4)); (274, (s2l "CHIDIST", 2, 2)); (275, (s2l "CHIINV", 2, 2));
   (276, (s2l "COMBIN", 2, 2)); (277, (s2l "CONFIDENCE", 3, 3)); (278, (s2l "CRITBINOM", 3, 3));
   (279, (s2l "EVEN", 1, 1)); (280, (s2l "EXPONDIST", 3, 3)); (281, (s2l "FDIST", 3, 3));
   (282, (s2l "FINV", 3, 3)); (283, (s2l "FISHER", 1, 1)); (284, (s2l "FISHERINV", 1, 1));
   (285, (s2l "FLOOR", 2, 2)); (286, (s2l "GAMMADIST", 4, 4)); (287, (s2l "GAMMAINV", 3, 3));
   (288, (s2l "CEILING", 2, 2)); (289, (s2l "HYPGEOMDIST", 4, 4)); (290, (s2l "LOGNORMDIST", 3, 3));
   (291, (s2l "LOGINV", 3, 3)); (292, (s2l "NEGBINOMDIST", 3, 3)); (293, (s2l "NORMDIST", 4, 4));
   (294, (s2l "NORMSDIST", 1, 1)); (295, (s2l "NORMINV", 3, 3)); (296, (s2l "NORMSINV", 1, 1));
   (297, (s2l "STANDARDIZE", 3, 3)); (298, (s2l "ODD", 1, 1)); (299, (s2l "PERMUT", 2, 2));
   (300, (s2l "POISSON", 3, 3)); (301, (s2l "TDIST", 3, 3)); (302, (s2l "WEIBULL", 4, 4));
   (303, (s2l "SUMXMY2", 2, 2)); (304, (s2l "SUMX2MY2", 2, 2)); (305, (s2l "SUMX2PY2", 2, 2));
   (306, (s2l "CHITEST", 2, 2)); (307, (s2l "CORREL", 2, 2)); (308, (s2l "COVAR", 2, 2));
   (309, (s2l "FORECAST", 3, 3)); (310, (s2l "FTEST", 2, 2)); (311, (s2l "INTERCEPT", 2, 2));
   (312, (s2l "PEARSON", 2, 2)); (313, (s2l "RSQ", 2, 2)); (314, (s2l "STEYX", 2, 2));
   (315, (s2l "SLOPE", 2, 2)); (316, (s2l "TTEST", 4, 4)); (317, (s2l "PROB", 3, 4));
   (318, (s2l "DEVSQ", 1, 30)); (319, (s2l "GEOMEAN", 1, 30)); (320, (s2l "HARMEAN", 1, 30));
   (321, (s2l "SUMSQ", 0, 30)); (322, (s2l "KURT", 1, 30)); (323, (s2l "SKEW", 1, 30));
   (324, (s2l "ZTEST", 2, 3)); (325, (s2l "LARGE", 2, 2)); (326, (s2l "SMALL", 2, 2));
   (327, (s2l "QUARTILE", 2, 2)); (328, (s2l "PERCENTILE", 2, 2)); (329, (s2l "PERCENTRANK", 2, 3));
   (330, (s2l "MODE", 1, 30)); (331, (s2l "TRIMMEAN", 2, 2)); (332, (s2l "TINV", 2, 2));
   (336, (s2l "CONCATENATE", 0, 30)); (337, (s2l "POWER", 2, 2)); (342, (s2l "RADIANS", 1, 1));
   (343, (s2l "DEGREES", 1, 1)); (344, (s2l "SUBTOTAL", 2, 30)); (345, (s2l "SUMIF", 2, 3));
   (346, (s2l "COUNTIF", 2, 2)); (347, (s2l "COUNTBLANK", 1, 1)); (350, (s2l "ISPMT", 4, 4));
   (351, (s2l "DATEDIF", 3, 3)); (352, (s2l "DATESTRING", 1, 1)); (353, (s2l "NUMBERSTRING", 2, 2));
   (354, (s2l "ROMAN", 1, 2)); (358, (s2l "GETPIVOTDATA", 2, 2)); (359, (s2l "HYPERLINK", 1, 2));
   (360, (s2l "PHONETIC", 1, 1)); (361, (s2l "AVERAGEA", 1, 30)); (362, (s2l "MAXA", 1, 30));
   (363, (s2l "MINA", 1, 30)); (364, (s2l "STDEVPA", 1, 30)); (365, (s2l "VARPA", 1, 30));
   (366, (s2l "STDEVA", 1, 30)); (367, (s2l "VARA", 1, 30)); (368, (s2l "BAHTTEXT", 1, 1));
   (369, (s2l "THAIDAYOFWEEK", 1, 1)); (370, (s2l "THAIDIGIT", 1, 1)); (371, (s2l "THAIMONTHOFYEAR", 1, 1));
   (372, (s2l "THAINUMSOUND", 1, 1)); (373, (s2l "THAINUMSTRING", 1, 1)); (374, (s2l "THAISTRINGLENGTH", 1, 1));
   (375, (s2l "ISTHAIDIGIT", 1, 1)); (376, (s2l "ROUNDBAHTDOWN", 1, 1)); (377, (s2l "ROUNDBAHTUP", 1, 1));
   (378, (s2l "THAIYEAR", 1, 1)); (379, (s2l "RTD", 2, 5))].

(** biffh.py:92-100 *)
Definition error_text_from_code : list (Z * list Z) :=
  [(0, s2l "#NULL!"); (7, s2l "#DIV/0!"); (0x0F, s2l "#VALUE!"); (0x17, s2l "#REF!");
   (0x1D, s2l "#NAME?"); (0x24, s2l "#NUM!"); (0x2A, s2l "#N/A")].

(** formula.py:397 *)
Definition error_opcode (opcode : Z) : bool := existsb (Z.eqb opcode) [0x07; 0x08; 0x0A; 0x0B; 0x1C; 0x1D; 0x2F].
