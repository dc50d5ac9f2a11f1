(** The shipped isotope table, src/f4enix/resources/Isotopes.txt lines 4-323, row by row: columns Z, E,
    Element, A, "Mean value", idx, "Atomic Mass" (the columns "Representative isotopic
    composition" and "Notes" are never read by the code).  Generated mechanically; the decimal
    numbers are kept exactly (the code rounds them to the nearest double). *)
From Verif Require Import PyBase PyStr LibModel.
Open Scope string_scope.
Open Scope N_scope.
Open Scope list_scope.

(* src/f4enix/resources/Isotopes.txt 4-323 *)
Definition shipped_rows : list (N * string * string * N * Q * string * Q) := [
(1, "H", "hydrogen", 1, (9998549999999999#10000000000000000)%Q, "1001", (1007825032#1000000000)%Q);
(1, "H", "hydrogen", 2, (145#1000000)%Q, "1002", (2014101778#1000000000)%Q);
(2, "He", "helium", 3, (2#1000000)%Q, "2003", (301602932#100000000)%Q);
(2, "He", "helium", 4, (9999979999999999#10000000000000000)%Q, "2004", (4002603254#1000000000)%Q);
(3, "Li", "lithium", 6, (485#10000)%Q, "3006", (6015122887#1000000000)%Q);
(3, "Li", "lithium", 7, (9515#10000)%Q, "3007", (7016003437#1000000000)%Q);
(4, "Be", "beryllium", 9, (10#10)%Q, "4009", (9012183065#1000000000)%Q);
(5, "B", "boron", 10, (1965#10000)%Q, "5010", (1001293695#100000000)%Q);
(5, "B", "boron", 11, (8035000000000001#10000000000000000)%Q, "5011", (1100930536#100000000)%Q);
(6, "C", "carbon", 12, (9894#10000)%Q, "6012", (12#1)%Q);
(6, "C", "carbon", 13, (10599999999999998#1000000000000000000)%Q, "6013", (1300335484#100000000)%Q);
(7, "N", "nitrogen", 14, (9962049999999999#10000000000000000)%Q, "7014", (14003074#1000000)%Q);
(7, "N", "nitrogen", 15, (3795#1000000)%Q, "7015", (150001089#10000000)%Q);
(8, "O", "oxygen", 16, (99757#100000)%Q, "8016", (1599491462#100000000)%Q);
(8, "O", "oxygen", 17, (3835#10000000)%Q, "8017", (1699913176#100000000)%Q);
(8, "O", "oxygen", 18, (2045#1000000)%Q, "8018", (1799915961#100000000)%Q);
(9, "F", "fluorine", 19, (10#10)%Q, "9019", (1899840316#100000000)%Q);
(10, "Ne", "neon", 20, (9048#10000)%Q, "10020", (1999244018#100000000)%Q);
(10, "Ne", "neon", 21, (27#10000)%Q, "10021", (2099384669#100000000)%Q);
(10, "Ne", "neon", 22, (925#10000)%Q, "10022", (2199138511#100000000)%Q);
(11, "Na", "sodium", 23, (10#10)%Q, "11023", (2298976928#100000000)%Q);
(12, "Mg", "magnesium", 24, (78965#100000)%Q, "12024", (239850417#10000000)%Q);
(12, "Mg", "magnesium", 25, (10011#100000)%Q, "12025", (2498583698#100000000)%Q);
(12, "Mg", "magnesium", 26, (11025#100000)%Q, "12026", (2598259297#100000000)%Q);
(13, "Al", "aluminium", 27, (10#10)%Q, "13027", (2698153853#100000000)%Q);
(14, "Si", "silicon", 28, (9225450000000001#10000000000000000)%Q, "14028", (2797692653#100000000)%Q);
(14, "Si", "silicon", 29, (4672#100000)%Q, "14029", (2897649466#100000000)%Q);
(14, "Si", "silicon", 30, (30735000000000002#1000000000000000000)%Q, "14030", (2997377014#100000000)%Q);
(15, "P", "phosphorus", 31, (10#10)%Q, "15031", (30973762#1000000)%Q);
(16, "S", "sulfur", 32, (9485#10000)%Q, "16032", (3197207117#100000000)%Q);
(16, "S", "sulfur", 33, (763#100000)%Q, "16033", (3297145891#100000000)%Q);
(16, "S", "sulfur", 34, (4365#100000)%Q, "16034", (33967867#1000000)%Q);
(16, "S", "sulfur", 36, (15800000000000002#100000000000000000000)%Q, "16036", (3596708071#100000000)%Q);
(17, "Cl", "chlorine", 35, (758#1000)%Q, "17035", (3496885268#100000000)%Q);
(17, "Cl", "chlorine", 37, (242#1000)%Q, "17037", (369659026#10000000)%Q);
(18, "Ar", "argon", 36, (1035#100000)%Q, "18036", (3596754511#100000000)%Q);
(18, "Ar", "argon", 38, (215#10000)%Q, "18038", (3796273211#100000000)%Q);
(18, "Ar", "argon", 40, (968#1000)%Q, "18040", (3996238312#100000000)%Q);
(19, "K", "potassium", 39, (932581#1000000)%Q, "19039", (3896370649#100000000)%Q);
(19, "K", "potassium", 40, (117#1000000)%Q, "19040", (3996399817#100000000)%Q);
(19, "K", "potassium", 41, (67302#1000000)%Q, "19041", (4096182526#100000000)%Q);
(20, "Ca", "calcium", 40, (96941#100000)%Q, "20040", (3996259086#100000000)%Q);
(20, "Ca", "calcium", 42, (647#100000)%Q, "20042", (4195861783#100000000)%Q);
(20, "Ca", "calcium", 43, (135#100000)%Q, "20043", (4295876644#100000000)%Q);
(20, "Ca", "calcium", 44, (2086#100000)%Q, "20044", (4395548156#100000000)%Q);
(20, "Ca", "calcium", 46, (4#100000)%Q, "20046", (45953689#1000000)%Q);
(20, "Ca", "calcium", 48, (187#100000)%Q, "20048", (4795252276#100000000)%Q);
(21, "Sc", "scandium", 45, (10#10)%Q, "21045", (4495590828#100000000)%Q);
(22, "Ti", "titanium", 46, (825#10000)%Q, "22046", (4595262772#100000000)%Q);
(22, "Ti", "titanium", 47, (744#10000)%Q, "22047", (4695175879#100000000)%Q);
(22, "Ti", "titanium", 48, (7372#10000)%Q, "22048", (4794794198#100000000)%Q);
(22, "Ti", "titanium", 49, (541#10000)%Q, "22049", (4894786568#100000000)%Q);
(22, "Ti", "titanium", 50, (518#10000)%Q, "22050", (4994478689#100000000)%Q);
(23, "V", "vanadium", 50, (25#10000)%Q, "23050", (4994715601#100000000)%Q);
(23, "V", "vanadium", 51, (9975#10000)%Q, "23051", (5094395704#100000000)%Q);
(24, "Cr", "chromium", 50, (4345#100000)%Q, "24050", (4994604183#100000000)%Q);
(24, "Cr", "chromium", 52, (8378899999999999#10000000000000000)%Q, "24052", (5194050623#100000000)%Q);
(24, "Cr", "chromium", 53, (9501#100000)%Q, "24053", (5294064815#100000000)%Q);
(24, "Cr", "chromium", 54, (2365#100000)%Q, "24054", (5393887916#100000000)%Q);
(25, "Mn", "manganese", 55, (10#10)%Q, "25055", (5493804391#100000000)%Q);
(26, "Fe", "iron", 54, (5845#100000)%Q, "26054", (5393960899#100000000)%Q);
(26, "Fe", "iron", 56, (9175399999999999#10000000000000000)%Q, "26056", (5593493633#100000000)%Q);
(26, "Fe", "iron", 57, (2119#100000)%Q, "26057", (5693539284#100000000)%Q);
(26, "Fe", "iron", 58, (282#100000)%Q, "26058", (5793327443#100000000)%Q);
(27, "Co", "cobalt", 59, (10#10)%Q, "27059", (5893319429#100000000)%Q);
(28, "Ni", "nickel", 58, (680769#1000000)%Q, "28058", (5793534241#100000000)%Q);
(28, "Ni", "nickel", 60, (262231#1000000)%Q, "28060", (5993078588#100000000)%Q);
(28, "Ni", "nickel", 61, (11399#1000000)%Q, "28061", (6093105557#100000000)%Q);
(28, "Ni", "nickel", 62, (36345#1000000)%Q, "28062", (6192834537#100000000)%Q);
(28, "Ni", "nickel", 64, (9256#1000000)%Q, "28064", (6392796682#100000000)%Q);
(29, "Cu", "copper", 63, (6915#10000)%Q, "29063", (6292959772#100000000)%Q);
(29, "Cu", "copper", 65, (3085#10000)%Q, "29065", (649277897#10000000)%Q);
(30, "Zn", "zinc", 64, (4917#10000)%Q, "30064", (6392914201#100000000)%Q);
(30, "Zn", "zinc", 66, (2773#10000)%Q, "30066", (6592603381#100000000)%Q);
(30, "Zn", "zinc", 67, (404#10000)%Q, "30067", (6692712775#100000000)%Q);
(30, "Zn", "zinc", 68, (1845#10000)%Q, "30068", (6792484455#100000000)%Q);
(30, "Zn", "zinc", 70, (61#10000)%Q, "30070", (699253192#10000000)%Q);
(31, "Ga", "gallium", 69, (6010800000000001#10000000000000000)%Q, "31069", (689255735#10000000)%Q);
(31, "Ga", "gallium", 71, (39892#100000)%Q, "31071", (7092470258#100000000)%Q);
(32, "Ge", "germanium", 70, (2052#10000)%Q, "32070", (6992424875#100000000)%Q);
(32, "Ge", "germanium", 72, (2745#10000)%Q, "32072", (7192207583#100000000)%Q);
(32, "Ge", "germanium", 73, (776#10000)%Q, "32073", (7292345896#100000000)%Q);
(32, "Ge", "germanium", 74, (3652#10000)%Q, "32074", (7392117776#100000000)%Q);
(32, "Ge", "germanium", 76, (775#10000)%Q, "32076", (7592140273#100000000)%Q);
(33, "As", "arsenic", 75, (10#10)%Q, "33075", (7492159457#100000000)%Q);
(34, "Se", "selenium", 74, (86#10000)%Q, "34074", (7392247593#100000000)%Q);
(34, "Se", "selenium", 76, (923#10000)%Q, "34076", (759192137#10000000)%Q);
(34, "Se", "selenium", 77, (76#1000)%Q, "34077", (7691991415#100000000)%Q);
(34, "Se", "selenium", 78, (2369#10000)%Q, "34078", (7791730928#100000000)%Q);
(34, "Se", "selenium", 80, (498#1000)%Q, "34080", (799165218#10000000)%Q);
(34, "Se", "selenium", 82, (882#10000)%Q, "34082", (819166995#10000000)%Q);
(35, "Br", "bromine", 79, (5065#10000)%Q, "35079", (789183376#10000000)%Q);
(35, "Br", "bromine", 81, (4935#10000)%Q, "35081", (809162897#10000000)%Q);
(36, "Kr", "krypton", 78, (355#100000)%Q, "36078", (7792036494#100000000)%Q);
(36, "Kr", "krypton", 80, (2286#100000)%Q, "36080", (7991637808#100000000)%Q);
(36, "Kr", "krypton", 82, (11592999999999999#100000000000000000)%Q, "36082", (8191348273#100000000)%Q);
(36, "Kr", "krypton", 83, (115#1000)%Q, "36083", (8291412716#100000000)%Q);
(36, "Kr", "krypton", 84, (56987#100000)%Q, "36084", (8391149773#100000000)%Q);
(36, "Kr", "krypton", 86, (17279#100000)%Q, "36086", (8591061063#100000000)%Q);
(37, "Rb", "rubidium", 85, (7217#10000)%Q, "37085", (8491178974#100000000)%Q);
(37, "Rb", "rubidium", 87, (2783#10000)%Q, "37087", (8690918053#100000000)%Q);
(38, "Sr", "strontium", 84, (56#10000)%Q, "38084", (839134191#10000000)%Q);
(38, "Sr", "strontium", 86, (986#10000)%Q, "38086", (859092606#10000000)%Q);
(38, "Sr", "strontium", 87, (7#100)%Q, "38087", (869088775#10000000)%Q);
(38, "Sr", "strontium", 88, (8258#10000)%Q, "38088", (879056125#10000000)%Q);
(39, "Y", "yttrium", 89, (10#10)%Q, "39089", (889058403#10000000)%Q);
(40, "Zr", "zirconium", 90, (5145#10000)%Q, "40090", (899046977#10000000)%Q);
(40, "Zr", "zirconium", 91, (1122#10000)%Q, "40091", (909056396#10000000)%Q);
(40, "Zr", "zirconium", 92, (1715#10000)%Q, "40092", (919050347#10000000)%Q);
(40, "Zr", "zirconium", 94, (1738#10000)%Q, "40094", (939063108#10000000)%Q);
(40, "Zr", "zirconium", 96, (27999999999999997#1000000000000000000)%Q, "40096", (959082714#10000000)%Q);
(41, "Nb", "niobium", 93, (10#10)%Q, "41093", (92906373#1000000)%Q);
(42, "Mo", "molybdenum", 92, (14649#100000)%Q, "42092", (9190680796#100000000)%Q);
(42, "Mo", "molybdenum", 94, (9187000000000001#100000000000000000)%Q, "42094", (939050849#10000000)%Q);
(42, "Mo", "molybdenum", 95, (15872999999999998#100000000000000000)%Q, "42095", (9490583877#100000000)%Q);
(42, "Mo", "molybdenum", 96, (16673#100000)%Q, "42096", (9590467612#100000000)%Q);
(42, "Mo", "molybdenum", 97, (9582#100000)%Q, "42097", (9690601812#100000000)%Q);
(42, "Mo", "molybdenum", 98, (24291999999999997#100000000000000000)%Q, "42098", (9790540482#100000000)%Q);
(42, "Mo", "molybdenum", 100, (9744#100000)%Q, "42100", (999074718#10000000)%Q);
(43, "Tc", "technetium", 97, (10#10)%Q, "43097", (969063667#10000000)%Q);
(44, "Ru", "ruthenium", 96, (554#10000)%Q, "44096", (9590759025#100000000)%Q);
(44, "Ru", "ruthenium", 98, (187#10000)%Q, "44098", (979052868#10000000)%Q);
(44, "Ru", "ruthenium", 99, (1276#10000)%Q, "44099", (989059341#10000000)%Q);
(44, "Ru", "ruthenium", 100, (126#1000)%Q, "44100", (999042143#10000000)%Q);
(44, "Ru", "ruthenium", 101, (1706#10000)%Q, "44101", (1009055769#10000000)%Q);
(44, "Ru", "ruthenium", 102, (3155#10000)%Q, "44102", (1019043441#10000000)%Q);
(44, "Ru", "ruthenium", 104, (1862#10000)%Q, "44104", (1039054275#10000000)%Q);
(45, "Rh", "rhodium", 103, (10#10)%Q, "45103", (102905498#1000000)%Q);
(46, "Pd", "palladium", 102, (102#10000)%Q, "46102", (1019056022#10000000)%Q);
(46, "Pd", "palladium", 104, (1114#10000)%Q, "46104", (1039040305#10000000)%Q);
(46, "Pd", "palladium", 105, (2233#10000)%Q, "46105", (1049050796#10000000)%Q);
(46, "Pd", "palladium", 106, (2733#10000)%Q, "46106", (1059034804#10000000)%Q);
(46, "Pd", "palladium", 108, (2646#10000)%Q, "46108", (1079038916#10000000)%Q);
(46, "Pd", "palladium", 110, (1172#10000)%Q, "46110", (1099051722#10000000)%Q);
(47, "Ag", "silver", 107, (51839#100000)%Q, "47107", (1069050916#10000000)%Q);
(47, "Ag", "silver", 109, (48161000000000004#100000000000000000)%Q, "47109", (1089047553#10000000)%Q);
(48, "Cd", "cadmium", 106, (1245#100000)%Q, "48106", (1059064599#10000000)%Q);
(48, "Cd", "cadmium", 108, (8879999999999999#1000000000000000000)%Q, "48108", (1079041834#10000000)%Q);
(48, "Cd", "cadmium", 110, (1247#10000)%Q, "48110", (1099030066#10000000)%Q);
(48, "Cd", "cadmium", 111, (12795#100000)%Q, "48111", (1109041829#10000000)%Q);
(48, "Cd", "cadmium", 112, (24109#100000)%Q, "48112", (1119027629#10000000)%Q);
(48, "Cd", "cadmium", 113, (12227#100000)%Q, "48113", (1129044081#10000000)%Q);
(48, "Cd", "cadmium", 114, (28754#100000)%Q, "48114", (1139033651#10000000)%Q);
(48, "Cd", "cadmium", 116, (7512#100000)%Q, "48116", (1159047632#10000000)%Q);
(49, "In", "indium", 113, (4281#100000)%Q, "49113", (1129040618#10000000)%Q);
(49, "In", "indium", 115, (95719#100000)%Q, "49115", (1149038788#10000000)%Q);
(50, "Sn", "tin", 112, (97#10000)%Q, "50112", (1119048239#10000000)%Q);
(50, "Sn", "tin", 114, (66#10000)%Q, "50114", (1139027827#10000000)%Q);
(50, "Sn", "tin", 115, (34#10000)%Q, "50115", (1149033447#10000000)%Q);
(50, "Sn", "tin", 116, (1454#10000)%Q, "50116", (1159017428#10000000)%Q);
(50, "Sn", "tin", 117, (768#10000)%Q, "50117", (116902954#1000000)%Q);
(50, "Sn", "tin", 118, (2422#10000)%Q, "50118", (1179016066#10000000)%Q);
(50, "Sn", "tin", 119, (859#10000)%Q, "50119", (1189033112#10000000)%Q);
(50, "Sn", "tin", 120, (3258#10000)%Q, "50120", (1199022016#10000000)%Q);
(50, "Sn", "tin", 122, (463#10000)%Q, "50122", (1219034438#10000000)%Q);
(50, "Sn", "tin", 124, (579#10000)%Q, "50124", (1239052766#10000000)%Q);
(51, "Sb", "antimony", 121, (5721#10000)%Q, "51121", (120903812#1000000)%Q);
(51, "Sb", "antimony", 123, (4279#10000)%Q, "51123", (1229042132#10000000)%Q);
(52, "Te", "tellurium", 120, (9#10000)%Q, "52120", (1199040593#10000000)%Q);
(52, "Te", "tellurium", 122, (255#10000)%Q, "52122", (1219030435#10000000)%Q);
(52, "Te", "tellurium", 123, (89#10000)%Q, "52123", (1229042698#10000000)%Q);
(52, "Te", "tellurium", 124, (474#10000)%Q, "52124", (1239028171#10000000)%Q);
(52, "Te", "tellurium", 125, (707#10000)%Q, "52125", (1249044299#10000000)%Q);
(52, "Te", "tellurium", 126, (1884#10000)%Q, "52126", (1259033109#10000000)%Q);
(52, "Te", "tellurium", 128, (3174#10000)%Q, "52128", (1279044613#10000000)%Q);
(52, "Te", "tellurium", 130, (3408#10000)%Q, "52130", (1299062227#10000000)%Q);
(53, "I", "iodine", 127, (10#10)%Q, "53127", (1269044719#10000000)%Q);
(54, "Xe", "xenon", 124, (95#100000)%Q, "54124", (123905892#1000000)%Q);
(54, "Xe", "xenon", 126, (8900000000000001#10000000000000000000)%Q, "54126", (1259042983#10000000)%Q);
(54, "Xe", "xenon", 128, (191#10000)%Q, "54128", (127903531#1000000)%Q);
(54, "Xe", "xenon", 129, (26400999999999997#100000000000000000)%Q, "54129", (1289047809#10000000)%Q);
(54, "Xe", "xenon", 130, (4071#100000)%Q, "54130", (1299035093#10000000)%Q);
(54, "Xe", "xenon", 131, (21231999999999998#100000000000000000)%Q, "54131", (1309050841#10000000)%Q);
(54, "Xe", "xenon", 132, (26909#100000)%Q, "54132", (1319041551#10000000)%Q);
(54, "Xe", "xenon", 134, (10436#100000)%Q, "54134", (1339053947#10000000)%Q);
(54, "Xe", "xenon", 136, (8857000000000001#100000000000000000)%Q, "54136", (1359072145#10000000)%Q);
(55, "Cs", "caesium", 133, (10#10)%Q, "55133", (132905452#1000000)%Q);
(56, "Ba", "barium", 130, (11#10000)%Q, "56130", (1299063207#10000000)%Q);
(56, "Ba", "barium", 132, (1#1000)%Q, "56132", (1319050611#10000000)%Q);
(56, "Ba", "barium", 134, (242#10000)%Q, "56134", (1339045082#10000000)%Q);
(56, "Ba", "barium", 135, (659#10000)%Q, "56135", (1349056884#10000000)%Q);
(56, "Ba", "barium", 136, (785#10000)%Q, "56136", (1359045757#10000000)%Q);
(56, "Ba", "barium", 137, (1123#10000)%Q, "56137", (1369058271#10000000)%Q);
(56, "Ba", "barium", 138, (7170000000000001#10000000000000000)%Q, "56138", (137905247#1000000)%Q);
(57, "La", "lanthanum", 138, (8881000000000001#10000000000000000000)%Q, "57138", (1379071149#10000000)%Q);
(57, "La", "lanthanum", 139, (9991119#10000000)%Q, "57139", (1389063563#10000000)%Q);
(58, "Ce", "cerium", 136, (186#100000)%Q, "58136", (1359071292#10000000)%Q);
(58, "Ce", "cerium", 138, (251#100000)%Q, "58138", (137905991#1000000)%Q);
(58, "Ce", "cerium", 140, (88449#100000)%Q, "58140", (1399054431#10000000)%Q);
(58, "Ce", "cerium", 142, (11114#100000)%Q, "58142", (1419092504#10000000)%Q);
(59, "Pr", "praseodymium", 141, (10#10)%Q, "59141", (1409076576#10000000)%Q);
(60, "Nd", "neodymium", 142, (27153#100000)%Q, "60142", (141907729#1000000)%Q);
(60, "Nd", "neodymium", 143, (12172999999999999#100000000000000000)%Q, "60143", (14290982#100000)%Q);
(60, "Nd", "neodymium", 144, (23798000000000002#100000000000000000)%Q, "60144", (143910093#1000000)%Q);
(60, "Nd", "neodymium", 145, (8292999999999999#100000000000000000)%Q, "60145", (1449125793#10000000)%Q);
(60, "Nd", "neodymium", 146, (17189000000000002#100000000000000000)%Q, "60146", (1459131226#10000000)%Q);
(60, "Nd", "neodymium", 148, (5756#100000)%Q, "60148", (1479168993#10000000)%Q);
(60, "Nd", "neodymium", 150, (5637999999999999#100000000000000000)%Q, "60150", (1499209022#10000000)%Q);
(61, "Pm", "promethium", 145, (10#10)%Q, "61145", (1449127559#10000000)%Q);
(62, "Sm", "samarium", 144, (308#10000)%Q, "62144", (1439120065#10000000)%Q);
(62, "Sm", "samarium", 147, (15#100)%Q, "62147", (1469149044#10000000)%Q);
(62, "Sm", "samarium", 148, (1125#10000)%Q, "62148", (1479148292#10000000)%Q);
(62, "Sm", "samarium", 149, (1382#10000)%Q, "62149", (1489171921#10000000)%Q);
(62, "Sm", "samarium", 150, (737#10000)%Q, "62150", (1499172829#10000000)%Q);
(62, "Sm", "samarium", 152, (2674#10000)%Q, "62152", (1519197397#10000000)%Q);
(62, "Sm", "samarium", 154, (2274#10000)%Q, "62154", (1539222169#10000000)%Q);
(63, "Eu", "europium", 151, (4781#10000)%Q, "63151", (1509198578#10000000)%Q);
(63, "Eu", "europium", 153, (5219#10000)%Q, "63153", (152921238#1000000)%Q);
(64, "Gd", "gadolinium", 152, (2#1000)%Q, "64152", (1519197995#10000000)%Q);
(64, "Gd", "gadolinium", 154, (218#10000)%Q, "64154", (1539208741#10000000)%Q);
(64, "Gd", "gadolinium", 155, (14800000000000002#100000000000000000)%Q, "64155", (1549226305#10000000)%Q);
(64, "Gd", "gadolinium", 156, (2047#10000)%Q, "64156", (1559221312#10000000)%Q);
(64, "Gd", "gadolinium", 157, (1565#10000)%Q, "64157", (1569239686#10000000)%Q);
(64, "Gd", "gadolinium", 158, (2484#10000)%Q, "64158", (1579241123#10000000)%Q);
(64, "Gd", "gadolinium", 160, (2186#10000)%Q, "64160", (1599270624#10000000)%Q);
(65, "Tb", "terbium", 159, (10#10)%Q, "65159", (1589253547#10000000)%Q);
(66, "Dy", "dysprosium", 156, (56#100000)%Q, "66156", (1559242847#10000000)%Q);
(66, "Dy", "dysprosium", 158, (95#100000)%Q, "66158", (1579244159#10000000)%Q);
(66, "Dy", "dysprosium", 160, (2329#100000)%Q, "66160", (1599252046#10000000)%Q);
(66, "Dy", "dysprosium", 161, (18889#100000)%Q, "66161", (1609269405#10000000)%Q);
(66, "Dy", "dysprosium", 162, (25475#100000)%Q, "66162", (1619268056#10000000)%Q);
(66, "Dy", "dysprosium", 163, (24896#100000)%Q, "66163", (1629287383#10000000)%Q);
(66, "Dy", "dysprosium", 164, (2826#10000)%Q, "66164", (1639291819#10000000)%Q);
(67, "Ho", "holmium", 165, (10#10)%Q, "67165", (1649303288#10000000)%Q);
(68, "Er", "erbium", 162, (139#100000)%Q, "68162", (1619287884#10000000)%Q);
(68, "Er", "erbium", 164, (1601#100000)%Q, "68164", (1639292088#10000000)%Q);
(68, "Er", "erbium", 166, (33503#100000)%Q, "68166", (1659302995#10000000)%Q);
(68, "Er", "erbium", 167, (22869#100000)%Q, "68167", (1669320546#10000000)%Q);
(68, "Er", "erbium", 168, (26978#100000)%Q, "68168", (1679323767#10000000)%Q);
(68, "Er", "erbium", 170, (1491#10000)%Q, "68170", (1699354702#10000000)%Q);
(69, "Tm", "thulium", 169, (10#10)%Q, "69169", (1689342179#10000000)%Q);
(70, "Yb", "ytterbium", 168, (126#100000)%Q, "70168", (1679338896#10000000)%Q);
(70, "Yb", "ytterbium", 170, (3023#100000)%Q, "70170", (1699347664#10000000)%Q);
(70, "Yb", "ytterbium", 171, (14215999999999998#100000000000000000)%Q, "70171", (1709363302#10000000)%Q);
(70, "Yb", "ytterbium", 172, (21754#100000)%Q, "70172", (1719363859#10000000)%Q);
(70, "Yb", "ytterbium", 173, (16097999999999998#100000000000000000)%Q, "70173", (1729382151#10000000)%Q);
(70, "Yb", "ytterbium", 174, (31895999999999997#100000000000000000)%Q, "70174", (1739388664#10000000)%Q);
(70, "Yb", "ytterbium", 176, (12887#100000)%Q, "70176", (1759425764#10000000)%Q);
(71, "Lu", "lutetium", 175, (97401#100000)%Q, "71175", (1749407752#10000000)%Q);
(71, "Lu", "lutetium", 176, (2599#100000)%Q, "71176", (1759426897#10000000)%Q);
(72, "Hf", "hafnium", 174, (16#10000)%Q, "72174", (1739400461#10000000)%Q);
(72, "Hf", "hafnium", 176, (526#10000)%Q, "72176", (1759414076#10000000)%Q);
(72, "Hf", "hafnium", 177, (18600000000000003#100000000000000000)%Q, "72177", (1769432277#10000000)%Q);
(72, "Hf", "hafnium", 178, (2728#10000)%Q, "72178", (1779437058#10000000)%Q);
(72, "Hf", "hafnium", 179, (1362#10000)%Q, "72179", (1789458232#10000000)%Q);
(72, "Hf", "hafnium", 180, (3508#10000)%Q, "72180", (179946557#1000000)%Q);
(73, "Ta", "tantalum", 180, (1176#10000000)%Q, "73180", (1799474648#10000000)%Q);
(73, "Ta", "tantalum", 181, (9998824000000001#10000000000000000)%Q, "73181", (1809479958#10000000)%Q);
(74, "W", "tungsten", 180, (12#10000)%Q, "74180", (1799467108#10000000)%Q);
(74, "W", "tungsten", 182, (265#1000)%Q, "74182", (1819482039#10000000)%Q);
(74, "W", "tungsten", 183, (1431#10000)%Q, "74183", (1829502228#10000000)%Q);
(74, "W", "tungsten", 184, (3064#10000)%Q, "74184", (1839509309#10000000)%Q);
(74, "W", "tungsten", 186, (2843#10000)%Q, "74186", (1859543628#10000000)%Q);
(75, "Re", "rhenium", 185, (374#1000)%Q, "75185", (1849529545#10000000)%Q);
(75, "Re", "rhenium", 187, (626#1000)%Q, "75187", (1869557501#10000000)%Q);
(76, "Os", "osmium", 184, (2#10000)%Q, "76184", (1839524885#10000000)%Q);
(76, "Os", "osmium", 186, (159#10000)%Q, "76186", (185953835#1000000)%Q);
(76, "Os", "osmium", 187, (196#10000)%Q, "76187", (1869557474#10000000)%Q);
(76, "Os", "osmium", 188, (1324#10000)%Q, "76188", (1879558352#10000000)%Q);
(76, "Os", "osmium", 189, (1615#10000)%Q, "76189", (1889581442#10000000)%Q);
(76, "Os", "osmium", 190, (2626#10000)%Q, "76190", (1899584437#10000000)%Q);
(76, "Os", "osmium", 192, (4078#10000)%Q, "76192", (191961477#1000000)%Q);
(77, "Ir", "iridium", 191, (3723#10000)%Q, "77191", (1909605893#10000000)%Q);
(77, "Ir", "iridium", 193, (6277#10000)%Q, "77193", (1929629216#10000000)%Q);
(78, "Pt", "platinum", 190, (11999999999999999#100000000000000000000)%Q, "78190", (1899599297#10000000)%Q);
(78, "Pt", "platinum", 192, (782#100000)%Q, "78192", (1919610387#10000000)%Q);
(78, "Pt", "platinum", 194, (32864#100000)%Q, "78194", (1939626809#10000000)%Q);
(78, "Pt", "platinum", 195, (33775#100000)%Q, "78195", (1949647917#10000000)%Q);
(78, "Pt", "platinum", 196, (25211#100000)%Q, "78196", (1959649521#10000000)%Q);
(78, "Pt", "platinum", 198, (7356#100000)%Q, "78198", (1979678949#10000000)%Q);
(79, "Au", "gold", 197, (10#10)%Q, "79197", (1969665688#10000000)%Q);
(80, "Hg", "mercury", 196, (15#10000)%Q, "80196", (1959658326#10000000)%Q);
(80, "Hg", "mercury", 198, (1004#10000)%Q, "80198", (1979667686#10000000)%Q);
(80, "Hg", "mercury", 199, (1694#10000)%Q, "80199", (1989682806#10000000)%Q);
(80, "Hg", "mercury", 200, (2314#10000)%Q, "80200", (1999683266#10000000)%Q);
(80, "Hg", "mercury", 201, (1317#10000)%Q, "80201", (2009703028#10000000)%Q);
(80, "Hg", "mercury", 202, (2974#10000)%Q, "80202", (2019706434#10000000)%Q);
(80, "Hg", "mercury", 204, (682#10000)%Q, "80204", (203973494#1000000)%Q);
(81, "Tl", "thallium", 203, (29515#100000)%Q, "81203", (2029723446#10000000)%Q);
(81, "Tl", "thallium", 205, (70485#100000)%Q, "81205", (2049744278#10000000)%Q);
(82, "Pb", "lead", 204, (13999999999999999#1000000000000000000)%Q, "82204", (203973044#1000000)%Q);
(82, "Pb", "lead", 206, (24100000000000002#100000000000000000)%Q, "82206", (2059744657#10000000)%Q);
(82, "Pb", "lead", 207, (221#1000)%Q, "82207", (2069758973#10000000)%Q);
(82, "Pb", "lead", 208, (524#1000)%Q, "82208", (2079766525#10000000)%Q);
(83, "Bi", "bismuth", 209, (10#10)%Q, "83209", (2089803991#10000000)%Q);
(84, "Po", "polonium", 209, (10#10)%Q, "84209", (2089824308#10000000)%Q);
(85, "At", "astatine", 210, (10#10)%Q, "85210", (2099871479#10000000)%Q);
(86, "Rn", "radon", 222, (10#10)%Q, "86222", (2220175782#10000000)%Q);
(87, "Fr", "francium", 223, (10#10)%Q, "87223", (223019736#1000000)%Q);
(88, "Ra", "radium", 226, (10#10)%Q, "88226", (2260254103#10000000)%Q);
(89, "Ac", "actinium", 227, (10#10)%Q, "89227", (2270277523#10000000)%Q);
(90, "Th", "thorium", 230, (2#10000)%Q, "90230", (2300331341#10000000)%Q);
(90, "Th", "thorium", 232, (9998#10000)%Q, "90232", (2320380558#10000000)%Q);
(91, "Pa", "protactinium", 231, (10#10)%Q, "91231", (2310358842#10000000)%Q);
(92, "U", "uranium", 234, (54000000000000005#1000000000000000000000)%Q, "92234", (2340409523#10000000)%Q);
(92, "U", "uranium", 235, (7204#1000000)%Q, "92235", (2350439301#10000000)%Q);
(92, "U", "uranium", 238, (992742#1000000)%Q, "92238", (2380507884#10000000)%Q);
(93, "Np", "neptunium", 237, (1#1)%Q, "93237", (2370481736#10000000)%Q);
(94, "Pu", "Plutonium", 244, (1#1)%Q, "94244", (2440642053#10000000)%Q);
(95, "Am", "Americium", 243, (1#1)%Q, "95243", (2430613813#10000000)%Q);
(96, "Cm", "Curium", 247, (1#1)%Q, "96247", (2470703541#10000000)%Q);
(97, "Bk", "Berkelium", 247, (1#1)%Q, "97247", (2470703073#10000000)%Q);
(98, "Cf", "Californium", 251, (1#1)%Q, "98251", (2510795886#10000000)%Q);
(99, "Es", "Einsteinium", 252, (1#1)%Q, "99252", (25208298#100000)%Q);
(100, "Fm", "Fermium", 257, (1#1)%Q, "100257", (2570951061#10000000)%Q);
(101, "Md", "Mendelevium", 258, (1#1)%Q, "101258", (2580984315#10000000)%Q);
(102, "Nb", "Nobelium", 259, (1#1)%Q, "102259", (25910103#100000)%Q);
(103, "Lr", "Lawrencium", 262, (1#1)%Q, "103262", (26210961#100000)%Q);
(104, "Rf", "Rutherfordium", 263, (1#1)%Q, "104263", (26712179#100000)%Q);
(105, "Db", "Dubnium", 262, (1#1)%Q, "105262", (26812567#100000)%Q);
(106, "Sg", "Seaborgium", 266, (1#1)%Q, "106266", (27113393#100000)%Q);
(107, "Bh", "Bohrium", 264, (1#1)%Q, "107264", (27213826#100000)%Q);
(108, "Hs", "Hassium", 269, (1#1)%Q, "108269", (27013429#100000)%Q);
(109, "Mt", "Meitnerium", 268, (1#1)%Q, "109268", (27615159#100000)%Q);
(110, "Uun", "Ununnilium", 272, (1#1)%Q, "110272", (28116451#100000)%Q);
(111, "Uuu", "Unununium", 272, (1#1)%Q, "111272", (28016514#100000)%Q);
(112, "Uub", "Ununbium", 277, (1#1)%Q, "112277", (28517712#100000)%Q);
(114, "Uuq", "Ununquadium", 289, (1#1)%Q, "114289", (28919042#100000)%Q);
(116, "Uuh", "Ununhexium", 289, (1#1)%Q, "116289", (29320449#100000)%Q);
(118, "Uuo", "Ununoctium", 293, (1#1)%Q, "118293", (29421392#100000)%Q)].

Definition shipped : list isorow :=
  map (fun r => match r with (z, e, n, a, q, i, m) => mkrow z (s2l e) (s2l n) a q (s2l i) m end) shipped_rows.
