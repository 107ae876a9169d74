(** The material data shipped with nidn: nidn/materials/data/*.csv, which
    material_collection.py:54-83 loads.  A number is written as a mantissa [m] and
    an exponent [e] standing for m / 10^e, as in the file; each table holds
    the lines of its file from the second on (the first is the header
    "Wavelength n k").  Generated from the files. *)
From Coq Require Import Reals ZArith QArith Qreals String List.
From Verif Require Import Base Model_Materials.
Import ListNotations.
Open Scope Z_scope.

(** A line of a file: wavelength, n, k as decimals. *)
Definition line := ((Z * Z) * (Z * Z) * (Z * Z))%type.
(** The number m / 10^e. *)
Definition decimal (x : Z * Z) : Q := Qmake (fst x) (Z.to_pos (10 ^ snd x)).
(** The row pandas.read_csv (material_collection.py:95) makes of a line
    (exact numbers, see Model_Materials.v). *)
Definition row_of (l : line) : row :=
  let '(w, n, k) := l in
  {| Wavelength := Q2R (decimal w); n_ := Q2R (decimal n); k_ := Q2R (decimal k) |}.

(** nidn/materials/data/aluminium_arsenide.csv, lines 2-201 *)
Definition aluminium_arsenide : list line :=
 [((2214, 4), (14237, 4), (31989, 4));
  ((22242, 5), (14464, 4), (3237, 3));
  ((22345, 5), (14711, 4), (32763, 4));
  ((22448, 5), (14978, 4), (33169, 4));
  ((22553, 5), (15267, 4), (33588, 4));
  ((22659, 5), (15582, 4), (3402, 3));
  ((22765, 5), (15925, 4), (34464, 4));
  ((22873, 5), (16297, 4), (3492, 3));
  ((22981, 5), (16704, 4), (35388, 4));
  ((23091, 5), (17147, 4), (35865, 4));
  ((23202, 5), (17631, 4), (3635, 3));
  ((23314, 5), (18158, 4), (36842, 4));
  ((23427, 5), (18735, 4), (37337, 4));
  ((23541, 5), (19363, 4), (37832, 4));
  ((23656, 5), (20049, 4), (38322, 4));
  ((23772, 5), (20796, 4), (38802, 4));
  ((23889, 5), (21607, 4), (39264, 4));
  ((24008, 5), (22487, 4), (39701, 4));
  ((24128, 5), (23437, 4), (40102, 4));
  ((24249, 5), (24458, 4), (40457, 4));
  ((24371, 5), (25549, 4), (40754, 4));
  ((24494, 5), (26705, 4), (40979, 4));
  ((24619, 5), (2792, 3), (41118, 4));
  ((24745, 5), (29184, 4), (4116, 3));
  ((24872, 5), (30482, 4), (41094, 4));
  ((25, 2), (31797, 4), (40911, 4));
  ((2513, 4), (3311, 3), (4061, 3));
  ((25261, 5), (34402, 4), (40192, 4));
  ((25394, 5), (35655, 4), (39665, 4));
  ((25528, 5), (36854, 4), (39039, 4));
  ((25663, 5), (37992, 4), (38331, 4));
  ((258, 3), (39065, 4), (37552, 4));
  ((25939, 5), (40077, 4), (36714, 4));
  ((26078, 5), (41035, 4), (35819, 4));
  ((2622, 4), (41942, 4), (34863, 4));
  ((26363, 5), (42798, 4), (33831, 4));
  ((26507, 5), (43583, 4), (32708, 4));
  ((26653, 5), (44266, 4), (31486, 4));
  ((26801, 5), (44802, 4), (30177, 4));
  ((2695, 4), (45155, 4), (28819, 4));
  ((27101, 5), (45307, 4), (27466, 4));
  ((27254, 5), (45267, 4), (26174, 4));
  ((27408, 5), (45065, 4), (24988, 4));
  ((27564, 5), (44738, 4), (23933, 4));
  ((27722, 5), (44324, 4), (23022, 4));
  ((27882, 5), (43854, 4), (22255, 4));
  ((28044, 5), (43354, 4), (21629, 4));
  ((28207, 5), (42841, 4), (21138, 4));
  ((28373, 5), (4233, 3), (20777, 4));
  ((2854, 4), (41834, 4), (20547, 4));
  ((28709, 5), (41364, 4), (20451, 4));
  ((28881, 5), (40937, 4), (20499, 4));
  ((29054, 5), (40578, 4), (20705, 4));
  ((2923, 4), (40327, 4), (21088, 4));
  ((29407, 5), (40255, 4), (21658, 4));
  ((29587, 5), (4047, 3), (22402, 4));
  ((29769, 5), (41111, 4), (23229, 4));
  ((29954, 5), (42293, 4), (23918, 4));
  ((3014, 4), (43953, 4), (24124, 4));
  ((30329, 5), (4573, 3), (23581, 4));
  ((30521, 5), (47129, 4), (22396, 4));
  ((30714, 5), (47926, 4), (20998, 4));
  ((30911, 5), (48263, 4), (19772, 4));
  ((31109, 5), (48436, 4), (18865, 4));
  ((31311, 5), (48714, 4), (18217, 4));
  ((31515, 5), (4927, 3), (17621, 4));
  ((31721, 5), (50094, 4), (16785, 4));
  ((31931, 5), (50937, 4), (15487, 4));
  ((32143, 5), (51445, 4), (13781, 4));
  ((32358, 5), (51442, 4), (11957, 4));
  ((32576, 5), (51001, 4), (10288, 4));
  ((32797, 5), (50298, 4), (88937, 5));
  ((3302, 4), (49482, 4), (77761, 5));
  ((33247, 5), (48644, 4), (68904, 5));
  ((33477, 5), (4783, 3), (61852, 5));
  ((33711, 5), (47063, 4), (56168, 5));
  ((33947, 5), (46347, 4), (51517, 5));
  ((34187, 5), (45685, 4), (47648, 5));
  ((3443, 4), (45073, 4), (44379, 5));
  ((34677, 5), (44508, 4), (41574, 5));
  ((34928, 5), (43985, 4), (39132, 5));
  ((35182, 5), (435, 2), (36975, 5));
  ((35439, 5), (43051, 4), (35043, 5));
  ((35701, 5), (42633, 4), (3329, 4));
  ((35966, 5), (42243, 4), (31678, 5));
  ((36236, 5), (4188, 3), (30175, 5));
  ((36509, 5), (41541, 4), (28754, 5));
  ((36787, 5), (41225, 4), (27391, 5));
  ((37069, 5), (40928, 4), (26063, 5));
  ((37355, 5), (40651, 4), (24746, 5));
  ((37645, 5), (40391, 4), (23415, 5));
  ((37941, 5), (40148, 4), (22033, 5));
  ((38241, 5), (39919, 4), (20543, 5));
  ((38545, 5), (39704, 4), (18785, 5));
  ((38855, 5), (3939, 3), (1651, 4));
  ((39169, 5), (39102, 4), (15569, 5));
  ((39489, 5), (38858, 4), (14573, 5));
  ((39814, 5), (38636, 4), (13506, 5));
  ((40145, 5), (3843, 3), (12336, 5));
  ((4048, 4), (38225, 4), (10981, 5));
  ((40822, 5), (37968, 4), (93241, 6));
  ((41169, 5), (37615, 4), (78298, 6));
  ((41523, 5), (37313, 4), (65678, 6));
  ((41882, 5), (37068, 4), (47059, 6));
  ((42248, 5), (36782, 4), (33231, 6));
  ((4262, 4), (36505, 4), (28085, 6));
  ((42999, 5), (3625, 3), (25642, 6));
  ((43385, 5), (36011, 4), (23682, 6));
  ((43777, 5), (35786, 4), (21879, 6));
  ((44177, 5), (35571, 4), (20202, 6));
  ((44584, 5), (35366, 4), (18643, 6));
  ((44999, 5), (35169, 4), (17194, 6));
  ((45421, 5), (3498, 3), (15849, 6));
  ((45852, 5), (34798, 4), (14601, 6));
  ((46291, 5), (34622, 4), (13442, 6));
  ((46738, 5), (34452, 4), (12368, 6));
  ((47194, 5), (34287, 4), (11372, 6));
  ((47659, 5), (34128, 4), (1045, 5));
  ((48133, 5), (33973, 4), (95962, 7));
  ((48616, 5), (33823, 4), (88061, 7));
  ((4911, 4), (33677, 4), (80755, 7));
  ((49614, 5), (33535, 4), (74003, 7));
  ((50128, 5), (33398, 4), (67766, 7));
  ((50653, 5), (33264, 4), (62009, 7));
  ((51188, 5), (33133, 4), (567, 5));
  ((51736, 5), (33006, 4), (51805, 7));
  ((52295, 5), (32883, 4), (47296, 7));
  ((52867, 5), (32762, 4), (43146, 7));
  ((53451, 5), (32645, 4), (39329, 7));
  ((54048, 5), (3253, 3), (3582, 6));
  ((54659, 5), (32418, 4), (32598, 7));
  ((55283, 5), (32309, 4), (29641, 7));
  ((55922, 5), (32203, 4), (2693, 6));
  ((56576, 5), (32099, 4), (24446, 7));
  ((57246, 5), (31997, 4), (22172, 7));
  ((57931, 5), (31898, 4), (20092, 7));
  ((58633, 5), (31802, 4), (18191, 7));
  ((59353, 5), (31707, 4), (16455, 7));
  ((6009, 4), (31615, 4), (14872, 7));
  ((60846, 5), (31525, 4), (13429, 7));
  ((61621, 5), (31437, 4), (12114, 7));
  ((62416, 5), (3135, 3), (10918, 7));
  ((63231, 5), (31266, 4), (98315, 8));
  ((64069, 5), (31184, 4), (88444, 8));
  ((64929, 5), (31103, 4), (79488, 8));
  ((65812, 5), (31025, 4), (71371, 8));
  ((66719, 5), (30948, 4), (6402, 7));
  ((67652, 5), (30872, 4), (5737, 7));
  ((68612, 5), (30799, 4), (51361, 8));
  ((69599, 5), (30727, 4), (45935, 8));
  ((70615, 5), (30656, 4), (41042, 8));
  ((71661, 5), (30587, 4), (36632, 8));
  ((72738, 5), (3052, 3), (32663, 8));
  ((73849, 5), (30454, 4), (29094, 8));
  ((74993, 5), (3039, 3), (25889, 8));
  ((76174, 5), (30326, 4), (23012, 8));
  ((77393, 5), (30265, 4), (20434, 8));
  ((78651, 5), (30204, 4), (18125, 8));
  ((79951, 5), (30146, 4), (1606, 7));
  ((81294, 5), (30088, 4), (14215, 8));
  ((82684, 5), (30031, 4), (12568, 8));
  ((84122, 5), (29976, 4), (111, 6));
  ((8561, 4), (29922, 4), (97927, 9));
  ((87152, 5), (2987, 3), (86297, 9));
  ((88751, 5), (29818, 4), (75962, 9));
  ((9041, 4), (29768, 4), (6679, 8));
  ((92132, 5), (29719, 4), (58658, 9));
  ((9392, 4), (2967, 3), (51457, 9));
  ((9578, 4), (29623, 4), (45088, 9));
  ((97714, 5), (29578, 4), (39461, 9));
  ((99729, 5), (29533, 4), (34496, 9));
  ((10183, 4), (29489, 4), (30119, 9));
  ((10402, 4), (29446, 4), (26266, 9));
  ((1063, 3), (29405, 4), (22878, 9));
  ((10869, 4), (29364, 4), (19903, 9));
  ((11119, 4), (29324, 4), (17293, 9));
  ((1138, 3), (29285, 4), (15006, 9));
  ((11655, 4), (29248, 4), (13006, 9));
  ((11942, 4), (29211, 4), (11257, 9));
  ((12245, 4), (29175, 4), (97316, 10));
  ((12563, 4), (2914, 3), (84014, 10));
  ((12897, 4), (29106, 4), (72435, 10));
  ((13251, 4), (29073, 4), (62368, 10));
  ((13624, 4), (29041, 4), (53626, 10));
  ((14019, 4), (29009, 4), (46046, 10));
  ((14437, 4), (28979, 4), (39483, 10));
  ((14881, 4), (28949, 4), (33806, 10));
  ((15353, 4), (2892, 3), (28904, 10));
  ((15857, 4), (28893, 4), (24676, 10));
  ((16394, 4), (28865, 4), (21035, 10));
  ((16969, 4), (28839, 4), (17904, 10));
  ((17586, 4), (28814, 4), (15216, 10));
  ((18249, 4), (28789, 4), (1291, 9));
  ((18965, 4), (28765, 4), (10936, 10));
  ((19738, 4), (28742, 4), (92491, 11));
  ((20578, 4), (2872, 3), (78088, 11));
  ((21492, 4), (28699, 4), (65813, 11));
  ((22491, 4), (28678, 4), (55368, 11));
  ((23588, 4), (28658, 4), (46496, 11));
  ((24797, 4), (28639, 4), (38971, 11))].

(** nidn/materials/data/aluminium_nitride.csv, lines 2-1452 *)
Definition aluminium_nitride : list line :=
 [((153846, 5), (202942, 5), (2, 5));
  ((153941, 5), (202941, 5), (2, 5));
  ((154036, 5), (20294, 4), (2, 5));
  ((154131, 5), (202939, 5), (2, 5));
  ((154226, 5), (202938, 5), (2, 5));
  ((154321, 5), (202937, 5), (2, 5));
  ((154416, 5), (202936, 5), (2, 5));
  ((154512, 5), (202935, 5), (2, 5));
  ((154607, 5), (202934, 5), (2, 5));
  ((154703, 5), (202933, 5), (2, 5));
  ((154799, 5), (202932, 5), (2, 5));
  ((154895, 5), (202931, 5), (2, 5));
  ((154991, 5), (20293, 4), (2, 5));
  ((155087, 5), (202929, 5), (2, 5));
  ((155183, 5), (202928, 5), (2, 5));
  ((15528, 4), (202927, 5), (2, 5));
  ((155376, 5), (202926, 5), (2, 5));
  ((155473, 5), (202925, 5), (2, 5));
  ((155569, 5), (202924, 5), (2, 5));
  ((155666, 5), (202923, 5), (2, 5));
  ((155763, 5), (202922, 5), (2, 5));
  ((15586, 4), (202921, 5), (2, 5));
  ((155958, 5), (20292, 4), (2, 5));
  ((156055, 5), (202919, 5), (3, 5));
  ((156152, 5), (202918, 5), (3, 5));
  ((15625, 4), (202917, 5), (3, 5));
  ((156348, 5), (202916, 5), (3, 5));
  ((156446, 5), (202915, 5), (3, 5));
  ((156544, 5), (202914, 5), (3, 5));
  ((156642, 5), (202913, 5), (3, 5));
  ((15674, 4), (202912, 5), (3, 5));
  ((156838, 5), (202911, 5), (3, 5));
  ((156937, 5), (20291, 4), (3, 5));
  ((157035, 5), (202909, 5), (3, 5));
  ((157134, 5), (202908, 5), (3, 5));
  ((157233, 5), (202907, 5), (3, 5));
  ((157332, 5), (202906, 5), (3, 5));
  ((157431, 5), (202905, 5), (3, 5));
  ((15753, 4), (202904, 5), (3, 5));
  ((157629, 5), (202903, 5), (3, 5));
  ((157729, 5), (202902, 5), (3, 5));
  ((157828, 5), (202901, 5), (3, 5));
  ((157928, 5), (2029, 3), (3, 5));
  ((158028, 5), (202899, 5), (3, 5));
  ((158128, 5), (202898, 5), (3, 5));
  ((158228, 5), (202897, 5), (3, 5));
  ((158328, 5), (202896, 5), (3, 5));
  ((158428, 5), (202895, 5), (3, 5));
  ((158529, 5), (202894, 5), (3, 5));
  ((158629, 5), (202893, 5), (3, 5));
  ((15873, 4), (202892, 5), (3, 5));
  ((158831, 5), (20289, 4), (3, 5));
  ((158932, 5), (202889, 5), (3, 5));
  ((159033, 5), (202888, 5), (3, 5));
  ((159134, 5), (202887, 5), (3, 5));
  ((159236, 5), (202886, 5), (3, 5));
  ((159337, 5), (202885, 5), (3, 5));
  ((159439, 5), (202884, 5), (3, 5));
  ((159541, 5), (202883, 5), (3, 5));
  ((159642, 5), (202882, 5), (3, 5));
  ((159744, 5), (202881, 5), (3, 5));
  ((159847, 5), (20288, 4), (3, 5));
  ((159949, 5), (202879, 5), (3, 5));
  ((160051, 5), (202878, 5), (3, 5));
  ((160154, 5), (202876, 5), (3, 5));
  ((160256, 5), (202875, 5), (3, 5));
  ((160359, 5), (202874, 5), (3, 5));
  ((160462, 5), (202873, 5), (3, 5));
  ((160565, 5), (202872, 5), (3, 5));
  ((160668, 5), (202871, 5), (3, 5));
  ((160772, 5), (20287, 4), (3, 5));
  ((160875, 5), (202869, 5), (3, 5));
  ((160979, 5), (202868, 5), (3, 5));
  ((161082, 5), (202867, 5), (3, 5));
  ((161186, 5), (202865, 5), (3, 5));
  ((16129, 4), (202864, 5), (3, 5));
  ((161394, 5), (202863, 5), (3, 5));
  ((161499, 5), (202862, 5), (3, 5));
  ((161603, 5), (202861, 5), (3, 5));
  ((161708, 5), (20286, 4), (3, 5));
  ((161812, 5), (202859, 5), (3, 5));
  ((161917, 5), (202858, 5), (3, 5));
  ((162022, 5), (202857, 5), (3, 5));
  ((162127, 5), (202855, 5), (3, 5));
  ((162232, 5), (202854, 5), (3, 5));
  ((162338, 5), (202853, 5), (3, 5));
  ((162443, 5), (202852, 5), (3, 5));
  ((162549, 5), (202851, 5), (3, 5));
  ((162655, 5), (20285, 4), (3, 5));
  ((16276, 4), (202849, 5), (3, 5));
  ((162866, 5), (202847, 5), (3, 5));
  ((162973, 5), (202846, 5), (3, 5));
  ((163079, 5), (202845, 5), (3, 5));
  ((163185, 5), (202844, 5), (3, 5));
  ((163292, 5), (202843, 5), (3, 5));
  ((163399, 5), (202842, 5), (3, 5));
  ((163506, 5), (202841, 5), (3, 5));
  ((163613, 5), (202839, 5), (3, 5));
  ((16372, 4), (202838, 5), (3, 5));
  ((163827, 5), (202837, 5), (3, 5));
  ((163934, 5), (202836, 5), (3, 5));
  ((164042, 5), (202835, 5), (3, 5));
  ((16415, 4), (202833, 5), (3, 5));
  ((164258, 5), (202832, 5), (3, 5));
  ((164366, 5), (202831, 5), (3, 5));
  ((164474, 5), (20283, 4), (3, 5));
  ((164582, 5), (202829, 5), (3, 5));
  ((16469, 4), (202828, 5), (3, 5));
  ((164799, 5), (202826, 5), (3, 5));
  ((164908, 5), (202825, 5), (3, 5));
  ((165017, 5), (202824, 5), (3, 5));
  ((165125, 5), (202823, 5), (3, 5));
  ((165235, 5), (202822, 5), (3, 5));
  ((165344, 5), (20282, 4), (3, 5));
  ((165453, 5), (202819, 5), (3, 5));
  ((165563, 5), (202818, 5), (3, 5));
  ((165673, 5), (202817, 5), (3, 5));
  ((165782, 5), (202816, 5), (3, 5));
  ((165893, 5), (202814, 5), (3, 5));
  ((166003, 5), (202813, 5), (3, 5));
  ((166113, 5), (202812, 5), (3, 5));
  ((166223, 5), (202811, 5), (3, 5));
  ((166334, 5), (20281, 4), (3, 5));
  ((166445, 5), (202808, 5), (3, 5));
  ((166556, 5), (202807, 5), (3, 5));
  ((166667, 5), (202806, 5), (3, 5));
  ((166778, 5), (202805, 5), (3, 5));
  ((166889, 5), (202803, 5), (3, 5));
  ((167001, 5), (202802, 5), (3, 5));
  ((167112, 5), (202801, 5), (3, 5));
  ((167224, 5), (2028, 3), (3, 5));
  ((167336, 5), (202798, 5), (3, 5));
  ((167448, 5), (202797, 5), (3, 5));
  ((16756, 4), (202796, 5), (3, 5));
  ((167673, 5), (202795, 5), (3, 5));
  ((167785, 5), (202793, 5), (3, 5));
  ((167898, 5), (202792, 5), (3, 5));
  ((168011, 5), (202791, 5), (3, 5));
  ((168124, 5), (20279, 4), (3, 5));
  ((168237, 5), (202788, 5), (3, 5));
  ((16835, 4), (202787, 5), (3, 5));
  ((168464, 5), (202786, 5), (3, 5));
  ((168577, 5), (202785, 5), (3, 5));
  ((168691, 5), (202783, 5), (3, 5));
  ((168805, 5), (202782, 5), (3, 5));
  ((168919, 5), (202781, 5), (3, 5));
  ((169033, 5), (202779, 5), (3, 5));
  ((169147, 5), (202778, 5), (3, 5));
  ((169262, 5), (202777, 5), (3, 5));
  ((169377, 5), (202776, 5), (3, 5));
  ((169492, 5), (202774, 5), (3, 5));
  ((169607, 5), (202773, 5), (3, 5));
  ((169722, 5), (202772, 5), (3, 5));
  ((169837, 5), (20277, 4), (3, 5));
  ((169952, 5), (202769, 5), (3, 5));
  ((170068, 5), (202768, 5), (3, 5));
  ((170184, 5), (202766, 5), (3, 5));
  ((1703, 3), (202765, 5), (3, 5));
  ((170416, 5), (202764, 5), (3, 5));
  ((170532, 5), (202762, 5), (3, 5));
  ((170648, 5), (202761, 5), (3, 5));
  ((170765, 5), (20276, 4), (3, 5));
  ((170882, 5), (202759, 5), (3, 5));
  ((170999, 5), (202757, 5), (3, 5));
  ((171116, 5), (202756, 5), (3, 5));
  ((171233, 5), (202755, 5), (3, 5));
  ((17135, 4), (202753, 5), (3, 5));
  ((171468, 5), (202752, 5), (3, 5));
  ((171585, 5), (20275, 4), (3, 5));
  ((171703, 5), (202749, 5), (3, 5));
  ((171821, 5), (202748, 5), (3, 5));
  ((171939, 5), (202746, 5), (3, 5));
  ((172058, 5), (202745, 5), (3, 5));
  ((172176, 5), (202744, 5), (3, 5));
  ((172295, 5), (202742, 5), (3, 5));
  ((172414, 5), (202741, 5), (3, 5));
  ((172533, 5), (20274, 4), (3, 5));
  ((172652, 5), (202738, 5), (3, 5));
  ((172771, 5), (202737, 5), (3, 5));
  ((172891, 5), (202736, 5), (3, 5));
  ((17301, 4), (202734, 5), (3, 5));
  ((17313, 4), (202733, 5), (3, 5));
  ((17325, 4), (202731, 5), (3, 5));
  ((17337, 4), (20273, 4), (3, 5));
  ((173491, 5), (202729, 5), (3, 5));
  ((173611, 5), (202727, 5), (3, 5));
  ((173732, 5), (202726, 5), (3, 5));
  ((173853, 5), (202724, 5), (3, 5));
  ((173974, 5), (202723, 5), (3, 5));
  ((174095, 5), (202722, 5), (3, 5));
  ((174216, 5), (20272, 4), (4, 5));
  ((174338, 5), (202719, 5), (4, 5));
  ((174459, 5), (202717, 5), (4, 5));
  ((174581, 5), (202716, 5), (4, 5));
  ((174703, 5), (202715, 5), (4, 5));
  ((174825, 5), (202713, 5), (4, 5));
  ((174948, 5), (202712, 5), (4, 5));
  ((17507, 4), (20271, 4), (4, 5));
  ((175193, 5), (202709, 5), (4, 5));
  ((175316, 5), (202707, 5), (4, 5));
  ((175439, 5), (202706, 5), (4, 5));
  ((175562, 5), (202705, 5), (4, 5));
  ((175685, 5), (202703, 5), (4, 5));
  ((175809, 5), (202702, 5), (4, 5));
  ((175932, 5), (2027, 3), (4, 5));
  ((176056, 5), (202699, 5), (4, 5));
  ((17618, 4), (202697, 5), (4, 5));
  ((176305, 5), (202696, 5), (4, 5));
  ((176429, 5), (202694, 5), (4, 5));
  ((176554, 5), (202693, 5), (4, 5));
  ((176678, 5), (202691, 5), (4, 5));
  ((176803, 5), (20269, 4), (4, 5));
  ((176929, 5), (202688, 5), (4, 5));
  ((177054, 5), (202687, 5), (4, 5));
  ((177179, 5), (202685, 5), (4, 5));
  ((177305, 5), (202684, 5), (4, 5));
  ((177431, 5), (202682, 5), (4, 5));
  ((177557, 5), (202681, 5), (4, 5));
  ((177683, 5), (20268, 4), (4, 5));
  ((177809, 5), (202678, 5), (4, 5));
  ((177936, 5), (202677, 5), (4, 5));
  ((178063, 5), (202675, 5), (4, 5));
  ((17819, 4), (202673, 5), (4, 5));
  ((178317, 5), (202672, 5), (4, 5));
  ((178444, 5), (20267, 4), (4, 5));
  ((178571, 5), (202669, 5), (4, 5));
  ((178699, 5), (202667, 5), (4, 5));
  ((178827, 5), (202666, 5), (4, 5));
  ((178955, 5), (202664, 5), (4, 5));
  ((179083, 5), (202663, 5), (4, 5));
  ((179211, 5), (202661, 5), (4, 5));
  ((17934, 4), (20266, 4), (4, 5));
  ((179469, 5), (202658, 5), (4, 5));
  ((179598, 5), (202657, 5), (4, 5));
  ((179727, 5), (202655, 5), (4, 5));
  ((179856, 5), (202654, 5), (4, 5));
  ((179986, 5), (202652, 5), (4, 5));
  ((180115, 5), (20265, 4), (4, 5));
  ((180245, 5), (202649, 5), (4, 5));
  ((180375, 5), (202647, 5), (4, 5));
  ((180505, 5), (202646, 5), (4, 5));
  ((180636, 5), (202644, 5), (4, 5));
  ((180766, 5), (202643, 5), (4, 5));
  ((180897, 5), (202641, 5), (4, 5));
  ((181028, 5), (202639, 5), (4, 5));
  ((181159, 5), (202638, 5), (4, 5));
  ((181291, 5), (202636, 5), (4, 5));
  ((181422, 5), (202635, 5), (4, 5));
  ((181554, 5), (202633, 5), (4, 5));
  ((181686, 5), (202631, 5), (4, 5));
  ((181818, 5), (20263, 4), (4, 5));
  ((181951, 5), (202628, 5), (4, 5));
  ((182083, 5), (202627, 5), (4, 5));
  ((182216, 5), (202625, 5), (4, 5));
  ((182349, 5), (202623, 5), (4, 5));
  ((182482, 5), (202622, 5), (4, 5));
  ((182615, 5), (20262, 4), (4, 5));
  ((182749, 5), (202619, 5), (4, 5));
  ((182882, 5), (202617, 5), (4, 5));
  ((183016, 5), (202615, 5), (4, 5));
  ((18315, 4), (202614, 5), (4, 5));
  ((183284, 5), (202612, 5), (4, 5));
  ((183419, 5), (20261, 4), (4, 5));
  ((183554, 5), (202609, 5), (4, 5));
  ((183688, 5), (202607, 5), (4, 5));
  ((183824, 5), (202605, 5), (4, 5));
  ((183959, 5), (202604, 5), (4, 5));
  ((184094, 5), (202602, 5), (4, 5));
  ((18423, 4), (2026, 3), (4, 5));
  ((184366, 5), (202599, 5), (4, 5));
  ((184502, 5), (202597, 5), (4, 5));
  ((184638, 5), (202595, 5), (4, 5));
  ((184775, 5), (202594, 5), (4, 5));
  ((184911, 5), (202592, 5), (4, 5));
  ((185048, 5), (20259, 4), (4, 5));
  ((185185, 5), (202589, 5), (4, 5));
  ((185322, 5), (202587, 5), (4, 5));
  ((18546, 4), (202585, 5), (4, 5));
  ((185598, 5), (202583, 5), (4, 5));
  ((185736, 5), (202582, 5), (4, 5));
  ((185874, 5), (20258, 4), (4, 5));
  ((186012, 5), (202578, 5), (4, 5));
  ((18615, 4), (202577, 5), (4, 5));
  ((186289, 5), (202575, 5), (4, 5));
  ((186428, 5), (202573, 5), (4, 5));
  ((186567, 5), (202571, 5), (4, 5));
  ((186706, 5), (20257, 4), (4, 5));
  ((186846, 5), (202568, 5), (4, 5));
  ((186986, 5), (202566, 5), (4, 5));
  ((187126, 5), (202564, 5), (4, 5));
  ((187266, 5), (202563, 5), (4, 5));
  ((187406, 5), (202561, 5), (4, 5));
  ((187547, 5), (202559, 5), (4, 5));
  ((187688, 5), (202557, 5), (4, 5));
  ((187829, 5), (202556, 5), (4, 5));
  ((18797, 4), (202554, 5), (4, 5));
  ((188111, 5), (202552, 5), (4, 5));
  ((188253, 5), (20255, 4), (4, 5));
  ((188395, 5), (202548, 5), (4, 5));
  ((188537, 5), (202547, 5), (4, 5));
  ((188679, 5), (202545, 5), (4, 5));
  ((188822, 5), (202543, 5), (4, 5));
  ((188964, 5), (202541, 5), (4, 5));
  ((189107, 5), (202539, 5), (5, 5));
  ((189251, 5), (202538, 5), (5, 5));
  ((189394, 5), (202536, 5), (5, 5));
  ((189538, 5), (202534, 5), (5, 5));
  ((189681, 5), (202532, 5), (5, 5));
  ((189825, 5), (20253, 4), (5, 5));
  ((18997, 4), (202528, 5), (5, 5));
  ((190114, 5), (202527, 5), (5, 5));
  ((190259, 5), (202525, 5), (5, 5));
  ((190404, 5), (202523, 5), (5, 5));
  ((190549, 5), (202521, 5), (5, 5));
  ((190694, 5), (202519, 5), (5, 5));
  ((19084, 4), (202517, 5), (5, 5));
  ((190985, 5), (202515, 5), (5, 5));
  ((191131, 5), (202514, 5), (5, 5));
  ((191278, 5), (202512, 5), (5, 5));
  ((191424, 5), (20251, 4), (5, 5));
  ((191571, 5), (202508, 5), (5, 5));
  ((191718, 5), (202506, 5), (5, 5));
  ((191865, 5), (202504, 5), (5, 5));
  ((192012, 5), (202502, 5), (5, 5));
  ((19216, 4), (2025, 3), (5, 5));
  ((192308, 5), (202498, 5), (5, 5));
  ((192456, 5), (202497, 5), (5, 5));
  ((192604, 5), (202495, 5), (5, 5));
  ((192753, 5), (202493, 5), (5, 5));
  ((192901, 5), (202491, 5), (5, 5));
  ((19305, 4), (202489, 5), (5, 5));
  ((193199, 5), (202487, 5), (5, 5));
  ((193349, 5), (202485, 5), (5, 5));
  ((193498, 5), (202483, 5), (5, 5));
  ((193648, 5), (202481, 5), (5, 5));
  ((193798, 5), (202479, 5), (5, 5));
  ((193949, 5), (202477, 5), (5, 5));
  ((194099, 5), (202475, 5), (5, 5));
  ((19425, 4), (202473, 5), (5, 5));
  ((194401, 5), (202471, 5), (5, 5));
  ((194553, 5), (202469, 5), (5, 5));
  ((194704, 5), (202467, 5), (5, 5));
  ((194856, 5), (202465, 5), (5, 5));
  ((195008, 5), (202463, 5), (5, 5));
  ((19516, 4), (202461, 5), (5, 5));
  ((195313, 5), (202459, 5), (5, 5));
  ((195465, 5), (202457, 5), (5, 5));
  ((195618, 5), (202455, 5), (5, 5));
  ((195771, 5), (202453, 5), (5, 5));
  ((195925, 5), (202451, 5), (5, 5));
  ((196078, 5), (202449, 5), (5, 5));
  ((196232, 5), (202447, 5), (5, 5));
  ((196386, 5), (202445, 5), (5, 5));
  ((196541, 5), (202443, 5), (5, 5));
  ((196696, 5), (202441, 5), (5, 5));
  ((19685, 4), (202439, 5), (5, 5));
  ((197006, 5), (202437, 5), (5, 5));
  ((197161, 5), (202435, 5), (5, 5));
  ((197316, 5), (202433, 5), (5, 5));
  ((197472, 5), (202431, 5), (5, 5));
  ((197628, 5), (202429, 5), (5, 5));
  ((197785, 5), (202427, 5), (5, 5));
  ((197941, 5), (202425, 5), (5, 5));
  ((198098, 5), (202422, 5), (5, 5));
  ((198255, 5), (20242, 4), (5, 5));
  ((198413, 5), (202418, 5), (5, 5));
  ((19857, 4), (202416, 5), (5, 5));
  ((198728, 5), (202414, 5), (5, 5));
  ((198886, 5), (202412, 5), (5, 5));
  ((199045, 5), (20241, 4), (5, 5));
  ((199203, 5), (202408, 5), (5, 5));
  ((199362, 5), (202406, 5), (5, 5));
  ((199521, 5), (202403, 5), (5, 5));
  ((199681, 5), (202401, 5), (5, 5));
  ((19984, 4), (202399, 5), (5, 5));
  ((2, 0), (202397, 5), (5, 5));
  ((20016, 4), (202395, 5), (5, 5));
  ((200321, 5), (202393, 5), (5, 5));
  ((200481, 5), (20239, 4), (5, 5));
  ((200642, 5), (202388, 5), (5, 5));
  ((200803, 5), (202386, 5), (5, 5));
  ((200965, 5), (202384, 5), (5, 5));
  ((201126, 5), (202382, 5), (5, 5));
  ((201288, 5), (20238, 4), (5, 5));
  ((20145, 4), (202377, 5), (5, 5));
  ((201613, 5), (202375, 5), (5, 5));
  ((201776, 5), (202373, 5), (6, 5));
  ((201939, 5), (202371, 5), (6, 5));
  ((202102, 5), (202368, 5), (6, 5));
  ((202265, 5), (202366, 5), (6, 5));
  ((202429, 5), (202364, 5), (6, 5));
  ((202593, 5), (202362, 5), (6, 5));
  ((202758, 5), (20236, 4), (6, 5));
  ((202922, 5), (202357, 5), (6, 5));
  ((203087, 5), (202355, 5), (6, 5));
  ((203252, 5), (202353, 5), (6, 5));
  ((203417, 5), (202351, 5), (6, 5));
  ((203583, 5), (202348, 5), (6, 5));
  ((203749, 5), (202346, 5), (6, 5));
  ((203915, 5), (202344, 5), (6, 5));
  ((204082, 5), (202341, 5), (6, 5));
  ((204248, 5), (202339, 5), (6, 5));
  ((204415, 5), (202337, 5), (6, 5));
  ((204583, 5), (202334, 5), (6, 5));
  ((20475, 4), (202332, 5), (6, 5));
  ((204918, 5), (20233, 4), (6, 5));
  ((205086, 5), (202328, 5), (6, 5));
  ((205255, 5), (202325, 5), (6, 5));
  ((205423, 5), (202323, 5), (6, 5));
  ((205592, 5), (20232, 4), (6, 5));
  ((205761, 5), (202318, 5), (6, 5));
  ((205931, 5), (202316, 5), (6, 5));
  ((206101, 5), (202313, 5), (6, 5));
  ((206271, 5), (202311, 5), (6, 5));
  ((206441, 5), (202309, 5), (6, 5));
  ((206612, 5), (202306, 5), (6, 5));
  ((206782, 5), (202304, 5), (6, 5));
  ((206954, 5), (202302, 5), (6, 5));
  ((207125, 5), (202299, 5), (6, 5));
  ((207297, 5), (202297, 5), (6, 5));
  ((207469, 5), (202294, 5), (6, 5));
  ((207641, 5), (202292, 5), (6, 5));
  ((207814, 5), (202289, 5), (6, 5));
  ((207987, 5), (202287, 5), (6, 5));
  ((20816, 4), (202285, 5), (6, 5));
  ((208333, 5), (202282, 5), (6, 5));
  ((208507, 5), (20228, 4), (6, 5));
  ((208681, 5), (202277, 5), (6, 5));
  ((208855, 5), (202275, 5), (6, 5));
  ((20903, 4), (202272, 5), (6, 5));
  ((209205, 5), (20227, 4), (6, 5));
  ((20938, 4), (202267, 5), (6, 5));
  ((209556, 5), (202265, 5), (6, 5));
  ((209732, 5), (202262, 5), (6, 5));
  ((209908, 5), (20226, 4), (6, 5));
  ((210084, 5), (202257, 5), (6, 5));
  ((210261, 5), (202255, 5), (6, 5));
  ((210438, 5), (202252, 5), (6, 5));
  ((210615, 5), (20225, 4), (6, 5));
  ((210793, 5), (202247, 5), (6, 5));
  ((21097, 4), (202245, 5), (6, 5));
  ((211149, 5), (202242, 5), (6, 5));
  ((211327, 5), (20224, 4), (6, 5));
  ((211506, 5), (202237, 5), (6, 5));
  ((211685, 5), (202235, 5), (6, 5));
  ((211864, 5), (202232, 5), (6, 5));
  ((212044, 5), (202229, 5), (6, 5));
  ((212224, 5), (202227, 5), (6, 5));
  ((212404, 5), (202224, 5), (6, 5));
  ((212585, 5), (202222, 5), (6, 5));
  ((212766, 5), (202219, 5), (6, 5));
  ((212947, 5), (202216, 5), (7, 5));
  ((213129, 5), (202214, 5), (7, 5));
  ((213311, 5), (202211, 5), (7, 5));
  ((213493, 5), (202209, 5), (7, 5));
  ((213675, 5), (202206, 5), (7, 5));
  ((213858, 5), (202203, 5), (7, 5));
  ((214041, 5), (202201, 5), (7, 5));
  ((214225, 5), (202198, 5), (7, 5));
  ((214408, 5), (202195, 5), (7, 5));
  ((214592, 5), (202193, 5), (7, 5));
  ((214777, 5), (20219, 4), (7, 5));
  ((214961, 5), (202187, 5), (7, 5));
  ((215146, 5), (202184, 5), (7, 5));
  ((215332, 5), (202182, 5), (7, 5));
  ((215517, 5), (202179, 5), (7, 5));
  ((215703, 5), (202176, 5), (7, 5));
  ((215889, 5), (202174, 5), (7, 5));
  ((216076, 5), (202171, 5), (7, 5));
  ((216263, 5), (202168, 5), (7, 5));
  ((21645, 4), (202165, 5), (7, 5));
  ((216638, 5), (202163, 5), (7, 5));
  ((216826, 5), (20216, 4), (7, 5));
  ((217014, 5), (202157, 5), (7, 5));
  ((217202, 5), (202154, 5), (7, 5));
  ((217391, 5), (202152, 5), (7, 5));
  ((217581, 5), (202149, 5), (7, 5));
  ((21777, 4), (202146, 5), (7, 5));
  ((21796, 4), (202143, 5), (7, 5));
  ((21815, 4), (20214, 4), (7, 5));
  ((218341, 5), (202138, 5), (7, 5));
  ((218531, 5), (202135, 5), (7, 5));
  ((218723, 5), (202132, 5), (7, 5));
  ((218914, 5), (202129, 5), (7, 5));
  ((219106, 5), (202126, 5), (7, 5));
  ((219298, 5), (202123, 5), (7, 5));
  ((219491, 5), (20212, 4), (7, 5));
  ((219684, 5), (202118, 5), (7, 5));
  ((219877, 5), (202115, 5), (7, 5));
  ((22007, 4), (202112, 5), (7, 5));
  ((220264, 5), (202109, 5), (7, 5));
  ((220459, 5), (202106, 5), (7, 5));
  ((220653, 5), (202103, 5), (7, 5));
  ((220848, 5), (2021, 3), (7, 5));
  ((221043, 5), (202097, 5), (7, 5));
  ((221239, 5), (202094, 5), (7, 5));
  ((221435, 5), (202091, 5), (7, 5));
  ((221631, 5), (202088, 5), (7, 5));
  ((221828, 5), (202085, 5), (7, 5));
  ((222025, 5), (202082, 5), (7, 5));
  ((222222, 5), (202079, 5), (7, 5));
  ((22242, 4), (202076, 5), (7, 5));
  ((222618, 5), (202073, 5), (7, 5));
  ((222816, 5), (20207, 4), (7, 5));
  ((223015, 5), (202067, 5), (8, 5));
  ((223214, 5), (202064, 5), (8, 5));
  ((223414, 5), (202061, 5), (8, 5));
  ((223614, 5), (202058, 5), (8, 5));
  ((223814, 5), (202055, 5), (8, 5));
  ((224014, 5), (202052, 5), (8, 5));
  ((224215, 5), (202049, 5), (8, 5));
  ((224417, 5), (202046, 5), (8, 5));
  ((224618, 5), (202043, 5), (8, 5));
  ((22482, 4), (20204, 4), (8, 5));
  ((225023, 5), (202037, 5), (8, 5));
  ((225225, 5), (202034, 5), (8, 5));
  ((225428, 5), (202031, 5), (8, 5));
  ((225632, 5), (202027, 5), (8, 5));
  ((225836, 5), (202024, 5), (8, 5));
  ((22604, 4), (202021, 5), (8, 5));
  ((226244, 5), (202018, 5), (8, 5));
  ((226449, 5), (202015, 5), (8, 5));
  ((226655, 5), (202012, 5), (8, 5));
  ((22686, 4), (202008, 5), (8, 5));
  ((227066, 5), (202005, 5), (8, 5));
  ((227273, 5), (202002, 5), (8, 5));
  ((22748, 4), (201999, 5), (8, 5));
  ((227687, 5), (201996, 5), (8, 5));
  ((227894, 5), (201992, 5), (8, 5));
  ((228102, 5), (201989, 5), (8, 5));
  ((228311, 5), (201986, 5), (8, 5));
  ((228519, 5), (201983, 5), (8, 5));
  ((228728, 5), (201979, 5), (8, 5));
  ((228938, 5), (201976, 5), (8, 5));
  ((229148, 5), (201973, 5), (8, 5));
  ((229358, 5), (20197, 4), (8, 5));
  ((229568, 5), (201966, 5), (8, 5));
  ((229779, 5), (201963, 5), (8, 5));
  ((229991, 5), (20196, 4), (8, 5));
  ((230203, 5), (201956, 5), (8, 5));
  ((230415, 5), (201953, 5), (8, 5));
  ((230627, 5), (20195, 4), (8, 5));
  ((23084, 4), (201946, 5), (8, 5));
  ((231054, 5), (201943, 5), (8, 5));
  ((231267, 5), (20194, 4), (8, 5));
  ((231481, 5), (201936, 5), (8, 5));
  ((231696, 5), (201933, 5), (8, 5));
  ((231911, 5), (201929, 5), (8, 5));
  ((232126, 5), (201926, 5), (9, 5));
  ((232342, 5), (201923, 5), (9, 5));
  ((232558, 5), (201919, 5), (9, 5));
  ((232775, 5), (201916, 5), (9, 5));
  ((232992, 5), (201912, 5), (9, 5));
  ((233209, 5), (201909, 5), (9, 5));
  ((233427, 5), (201905, 5), (9, 5));
  ((233645, 5), (201902, 5), (9, 5));
  ((233863, 5), (201898, 5), (9, 5));
  ((234082, 5), (201895, 5), (9, 5));
  ((234302, 5), (201891, 5), (9, 5));
  ((234522, 5), (201888, 5), (9, 5));
  ((234742, 5), (201884, 5), (9, 5));
  ((234962, 5), (201881, 5), (9, 5));
  ((235183, 5), (201877, 5), (9, 5));
  ((235405, 5), (201873, 5), (9, 5));
  ((235627, 5), (20187, 4), (9, 5));
  ((235849, 5), (201866, 5), (9, 5));
  ((236072, 5), (201863, 5), (9, 5));
  ((236295, 5), (201859, 5), (9, 5));
  ((236518, 5), (201855, 5), (9, 5));
  ((236742, 5), (201852, 5), (9, 5));
  ((236967, 5), (201848, 5), (9, 5));
  ((237192, 5), (201845, 5), (9, 5));
  ((237417, 5), (201841, 5), (9, 5));
  ((237643, 5), (201837, 5), (9, 5));
  ((237869, 5), (201834, 5), (9, 5));
  ((238095, 5), (20183, 4), (9, 5));
  ((238322, 5), (201826, 5), (9, 5));
  ((23855, 4), (201822, 5), (9, 5));
  ((238777, 5), (201819, 5), (9, 5));
  ((239006, 5), (201815, 5), (9, 5));
  ((239234, 5), (201811, 5), (9, 5));
  ((239464, 5), (201807, 5), (9, 5));
  ((239693, 5), (201804, 5), (9, 5));
  ((239923, 5), (2018, 3), (9, 5));
  ((240154, 5), (201796, 5), (9, 5));
  ((240385, 5), (201792, 5), (9, 5));
  ((240616, 5), (201788, 5), (1, 4));
  ((240848, 5), (201785, 5), (1, 4));
  ((24108, 4), (201781, 5), (1, 4));
  ((241313, 5), (201777, 5), (1, 4));
  ((241546, 5), (201773, 5), (1, 4));
  ((241779, 5), (201769, 5), (1, 4));
  ((242014, 5), (201765, 5), (1, 4));
  ((242248, 5), (201761, 5), (1, 4));
  ((242483, 5), (201757, 5), (1, 4));
  ((242718, 5), (201754, 5), (1, 4));
  ((242954, 5), (20175, 4), (1, 4));
  ((243191, 5), (201746, 5), (1, 4));
  ((243427, 5), (201742, 5), (1, 4));
  ((243665, 5), (201738, 5), (1, 4));
  ((243902, 5), (201734, 5), (1, 4));
  ((244141, 5), (20173, 4), (1, 4));
  ((244379, 5), (201726, 5), (1, 4));
  ((244618, 5), (201722, 5), (1, 4));
  ((244858, 5), (201718, 5), (1, 4));
  ((245098, 5), (201714, 5), (1, 4));
  ((245339, 5), (20171, 4), (1, 4));
  ((24558, 4), (201705, 5), (1, 4));
  ((245821, 5), (201701, 5), (1, 4));
  ((246063, 5), (201697, 5), (1, 4));
  ((246305, 5), (201693, 5), (1, 4));
  ((246548, 5), (201689, 5), (1, 4));
  ((246792, 5), (201685, 5), (1, 4));
  ((247036, 5), (201681, 5), (1, 4));
  ((24728, 4), (201677, 5), (1, 4));
  ((247525, 5), (201672, 5), (1, 4));
  ((24777, 4), (201668, 5), (1, 4));
  ((248016, 5), (201664, 5), (1, 4));
  ((248262, 5), (20166, 4), (1, 4));
  ((248509, 5), (201656, 5), (11, 5));
  ((248756, 5), (201651, 5), (11, 5));
  ((249004, 5), (201647, 5), (11, 5));
  ((249252, 5), (201643, 5), (11, 5));
  ((249501, 5), (201639, 5), (11, 5));
  ((24975, 4), (201634, 5), (11, 5));
  ((25, 1), (20163, 4), (11, 5));
  ((25025, 4), (201626, 5), (11, 5));
  ((250501, 5), (201621, 5), (11, 5));
  ((250752, 5), (201617, 5), (11, 5));
  ((251004, 5), (201613, 5), (11, 5));
  ((251256, 5), (201608, 5), (11, 5));
  ((251509, 5), (201604, 5), (11, 5));
  ((251762, 5), (201599, 5), (11, 5));
  ((252016, 5), (201595, 5), (11, 5));
  ((25227, 4), (201591, 5), (11, 5));
  ((252525, 5), (201586, 5), (11, 5));
  ((252781, 5), (201582, 5), (11, 5));
  ((253036, 5), (201577, 5), (11, 5));
  ((253293, 5), (201573, 5), (11, 5));
  ((25355, 4), (201568, 5), (11, 5));
  ((253807, 5), (201564, 5), (11, 5));
  ((254065, 5), (201559, 5), (11, 5));
  ((254323, 5), (201555, 5), (11, 5));
  ((254582, 5), (20155, 4), (11, 5));
  ((254842, 5), (201545, 5), (11, 5));
  ((255102, 5), (201541, 5), (11, 5));
  ((255363, 5), (201536, 5), (11, 5));
  ((255624, 5), (201532, 5), (12, 5));
  ((255885, 5), (201527, 5), (12, 5));
  ((256148, 5), (201522, 5), (12, 5));
  ((25641, 4), (201518, 5), (12, 5));
  ((256674, 5), (201513, 5), (12, 5));
  ((256937, 5), (201508, 5), (12, 5));
  ((257202, 5), (201504, 5), (12, 5));
  ((257467, 5), (201499, 5), (12, 5));
  ((257732, 5), (201494, 5), (12, 5));
  ((257998, 5), (201489, 5), (12, 5));
  ((258264, 5), (201485, 5), (12, 5));
  ((258532, 5), (20148, 4), (12, 5));
  ((258799, 5), (201475, 5), (12, 5));
  ((259067, 5), (20147, 4), (12, 5));
  ((259336, 5), (201465, 5), (12, 5));
  ((259605, 5), (201461, 5), (12, 5));
  ((259875, 5), (201456, 5), (12, 5));
  ((260146, 5), (201451, 5), (12, 5));
  ((260417, 5), (201446, 5), (12, 5));
  ((260688, 5), (201441, 5), (12, 5));
  ((26096, 4), (201436, 5), (12, 5));
  ((261233, 5), (201431, 5), (12, 5));
  ((261506, 5), (201426, 5), (12, 5));
  ((26178, 4), (201421, 5), (12, 5));
  ((262055, 5), (201416, 5), (12, 5));
  ((262329, 5), (201411, 5), (12, 5));
  ((262605, 5), (201406, 5), (13, 5));
  ((262881, 5), (201401, 5), (13, 5));
  ((263158, 5), (201396, 5), (13, 5));
  ((263435, 5), (201391, 5), (13, 5));
  ((263713, 5), (201386, 5), (13, 5));
  ((263992, 5), (201381, 5), (13, 5));
  ((264271, 5), (201376, 5), (13, 5));
  ((26455, 4), (20137, 4), (13, 5));
  ((264831, 5), (201365, 5), (13, 5));
  ((265111, 5), (20136, 4), (13, 5));
  ((265393, 5), (201355, 5), (13, 5));
  ((265675, 5), (20135, 4), (13, 5));
  ((265957, 5), (201344, 5), (13, 5));
  ((266241, 5), (201339, 5), (13, 5));
  ((266525, 5), (201334, 5), (13, 5));
  ((266809, 5), (201329, 5), (13, 5));
  ((267094, 5), (201323, 5), (13, 5));
  ((26738, 4), (201318, 5), (13, 5));
  ((267666, 5), (201313, 5), (13, 5));
  ((267953, 5), (201307, 5), (13, 5));
  ((26824, 4), (201302, 5), (13, 5));
  ((268528, 5), (201297, 5), (13, 5));
  ((268817, 5), (201291, 5), (13, 5));
  ((269107, 5), (201286, 5), (14, 5));
  ((269397, 5), (20128, 4), (14, 5));
  ((269687, 5), (201275, 5), (14, 5));
  ((269978, 5), (201269, 5), (14, 5));
  ((27027, 4), (201264, 5), (14, 5));
  ((270563, 5), (201258, 5), (14, 5));
  ((270856, 5), (201253, 5), (14, 5));
  ((27115, 4), (201247, 5), (14, 5));
  ((271444, 5), (201242, 5), (14, 5));
  ((271739, 5), (201236, 5), (14, 5));
  ((272035, 5), (20123, 4), (14, 5));
  ((272331, 5), (201225, 5), (14, 5));
  ((272628, 5), (201219, 5), (14, 5));
  ((272926, 5), (201213, 5), (14, 5));
  ((273224, 5), (201208, 5), (14, 5));
  ((273523, 5), (201202, 5), (14, 5));
  ((273823, 5), (201196, 5), (14, 5));
  ((274123, 5), (201191, 5), (14, 5));
  ((274424, 5), (201185, 5), (14, 5));
  ((274725, 5), (201179, 5), (14, 5));
  ((275028, 5), (201173, 5), (14, 5));
  ((27533, 4), (201167, 5), (15, 5));
  ((275634, 5), (201161, 5), (15, 5));
  ((275938, 5), (201156, 5), (15, 5));
  ((276243, 5), (20115, 4), (15, 5));
  ((276549, 5), (201144, 5), (15, 5));
  ((276855, 5), (201138, 5), (15, 5));
  ((277162, 5), (201132, 5), (15, 5));
  ((277469, 5), (201126, 5), (15, 5));
  ((277778, 5), (20112, 4), (15, 5));
  ((278087, 5), (201114, 5), (15, 5));
  ((278396, 5), (201108, 5), (15, 5));
  ((278707, 5), (201102, 5), (15, 5));
  ((279018, 5), (201096, 5), (15, 5));
  ((27933, 4), (20109, 4), (15, 5));
  ((279642, 5), (201083, 5), (15, 5));
  ((279955, 5), (201077, 5), (15, 5));
  ((280269, 5), (201071, 5), (15, 5));
  ((280584, 5), (201065, 5), (15, 5));
  ((280899, 5), (201059, 5), (16, 5));
  ((281215, 5), (201052, 5), (16, 5));
  ((281532, 5), (201046, 5), (16, 5));
  ((281849, 5), (20104, 4), (16, 5));
  ((282167, 5), (201034, 5), (16, 5));
  ((282486, 5), (201027, 5), (16, 5));
  ((282805, 5), (201021, 5), (16, 5));
  ((283126, 5), (201014, 5), (16, 5));
  ((283447, 5), (201008, 5), (16, 5));
  ((283768, 5), (201002, 5), (16, 5));
  ((284091, 5), (200995, 5), (16, 5));
  ((284414, 5), (200989, 5), (16, 5));
  ((284738, 5), (200982, 5), (16, 5));
  ((285063, 5), (200976, 5), (16, 5));
  ((285388, 5), (200969, 5), (16, 5));
  ((285714, 5), (200963, 5), (16, 5));
  ((286041, 5), (200956, 5), (16, 5));
  ((286369, 5), (200949, 5), (16, 5));
  ((286697, 5), (200943, 5), (17, 5));
  ((287026, 5), (200936, 5), (17, 5));
  ((287356, 5), (200929, 5), (17, 5));
  ((287687, 5), (200923, 5), (17, 5));
  ((288018, 5), (200916, 5), (17, 5));
  ((288351, 5), (200909, 5), (17, 5));
  ((288684, 5), (200902, 5), (17, 5));
  ((289017, 5), (200896, 5), (17, 5));
  ((289352, 5), (200889, 5), (17, 5));
  ((289687, 5), (200882, 5), (17, 5));
  ((290023, 5), (200875, 5), (17, 5));
  ((29036, 4), (200868, 5), (17, 5));
  ((290698, 5), (200861, 5), (17, 5));
  ((291036, 5), (200854, 5), (17, 5));
  ((291375, 5), (200847, 5), (17, 5));
  ((291715, 5), (20084, 4), (17, 5));
  ((292056, 5), (200833, 5), (18, 5));
  ((292398, 5), (200826, 5), (18, 5));
  ((29274, 4), (200819, 5), (18, 5));
  ((293083, 5), (200812, 5), (18, 5));
  ((293427, 5), (200805, 5), (18, 5));
  ((293772, 5), (200798, 5), (18, 5));
  ((294118, 5), (20079, 4), (18, 5));
  ((294464, 5), (200783, 5), (18, 5));
  ((294811, 5), (200776, 5), (18, 5));
  ((295159, 5), (200769, 5), (18, 5));
  ((295508, 5), (200761, 5), (18, 5));
  ((295858, 5), (200754, 5), (18, 5));
  ((296209, 5), (200747, 5), (18, 5));
  ((29656, 4), (200739, 5), (18, 5));
  ((296912, 5), (200732, 5), (19, 5));
  ((297265, 5), (200724, 5), (19, 5));
  ((297619, 5), (200717, 5), (19, 5));
  ((297974, 5), (200709, 5), (19, 5));
  ((298329, 5), (200702, 5), (19, 5));
  ((298686, 5), (200694, 5), (19, 5));
  ((299043, 5), (200687, 5), (19, 5));
  ((299401, 5), (200679, 5), (19, 5));
  ((29976, 4), (200671, 5), (19, 5));
  ((30012, 4), (200664, 5), (19, 5));
  ((300481, 5), (200656, 5), (19, 5));
  ((300842, 5), (200648, 5), (19, 5));
  ((301205, 5), (20064, 4), (19, 5));
  ((301568, 5), (200633, 5), (19, 5));
  ((301932, 5), (200625, 5), (2, 4));
  ((302297, 5), (200617, 5), (2, 4));
  ((302663, 5), (200609, 5), (2, 4));
  ((30303, 4), (200601, 5), (2, 4));
  ((303398, 5), (200593, 5), (2, 4));
  ((303767, 5), (200585, 5), (2, 4));
  ((304136, 5), (200577, 5), (2, 4));
  ((304507, 5), (200569, 5), (2, 4));
  ((304878, 5), (200561, 5), (2, 4));
  ((30525, 4), (200553, 5), (2, 4));
  ((305623, 5), (200545, 5), (2, 4));
  ((305998, 5), (200537, 5), (2, 4));
  ((306373, 5), (200528, 5), (2, 4));
  ((306748, 5), (20052, 4), (21, 5));
  ((307125, 5), (200512, 5), (21, 5));
  ((307503, 5), (200504, 5), (21, 5));
  ((307882, 5), (200495, 5), (21, 5));
  ((308261, 5), (200487, 5), (21, 5));
  ((308642, 5), (200479, 5), (21, 5));
  ((309023, 5), (20047, 4), (21, 5));
  ((309406, 5), (200462, 5), (21, 5));
  ((309789, 5), (200453, 5), (21, 5));
  ((310174, 5), (200445, 5), (21, 5));
  ((310559, 5), (200436, 5), (21, 5));
  ((310945, 5), (200427, 5), (21, 5));
  ((311333, 5), (200419, 5), (22, 5));
  ((311721, 5), (20041, 4), (22, 5));
  ((31211, 4), (200401, 5), (22, 5));
  ((3125, 3), (200393, 5), (22, 5));
  ((312891, 5), (200384, 5), (22, 5));
  ((313283, 5), (200375, 5), (22, 5));
  ((313676, 5), (200366, 5), (22, 5));
  ((31407, 4), (200357, 5), (22, 5));
  ((314465, 5), (200348, 5), (22, 5));
  ((314861, 5), (200339, 5), (22, 5));
  ((315259, 5), (20033, 4), (22, 5));
  ((315657, 5), (200321, 5), (23, 5));
  ((316056, 5), (200312, 5), (23, 5));
  ((316456, 5), (200303, 5), (23, 5));
  ((316857, 5), (200294, 5), (23, 5));
  ((317259, 5), (200285, 5), (23, 5));
  ((317662, 5), (200276, 5), (23, 5));
  ((318066, 5), (200266, 5), (23, 5));
  ((318471, 5), (200257, 5), (23, 5));
  ((318878, 5), (200248, 5), (23, 5));
  ((319285, 5), (200238, 5), (23, 5));
  ((319693, 5), (200229, 5), (23, 5));
  ((320102, 5), (20022, 4), (24, 5));
  ((320513, 5), (20021, 4), (24, 5));
  ((320924, 5), (200201, 5), (24, 5));
  ((321337, 5), (200191, 5), (24, 5));
  ((32175, 4), (200181, 5), (24, 5));
  ((322165, 5), (200172, 5), (24, 5));
  ((322581, 5), (200162, 5), (24, 5));
  ((322997, 5), (200152, 5), (24, 5));
  ((323415, 5), (200142, 5), (24, 5));
  ((323834, 5), (200133, 5), (24, 5));
  ((324254, 5), (200123, 5), (25, 5));
  ((324675, 5), (200113, 5), (25, 5));
  ((325098, 5), (200103, 5), (25, 5));
  ((325521, 5), (200093, 5), (25, 5));
  ((325945, 5), (200083, 5), (25, 5));
  ((326371, 5), (200073, 5), (25, 5));
  ((326797, 5), (200063, 5), (25, 5));
  ((327225, 5), (200053, 5), (25, 5));
  ((327654, 5), (200043, 5), (25, 5));
  ((328084, 5), (200032, 5), (26, 5));
  ((328515, 5), (200022, 5), (26, 5));
  ((328947, 5), (200012, 5), (26, 5));
  ((329381, 5), (200001, 5), (26, 5));
  ((329815, 5), (199991, 5), (26, 5));
  ((330251, 5), (19998, 4), (26, 5));
  ((330688, 5), (19997, 4), (26, 5));
  ((331126, 5), (199959, 5), (26, 5));
  ((331565, 5), (199949, 5), (26, 5));
  ((332005, 5), (199938, 5), (27, 5));
  ((332447, 5), (199927, 5), (27, 5));
  ((332889, 5), (199917, 5), (27, 5));
  ((333333, 5), (199906, 5), (27, 5));
  ((333778, 5), (199895, 5), (27, 5));
  ((334225, 5), (199884, 5), (27, 5));
  ((334672, 5), (199873, 5), (27, 5));
  ((335121, 5), (199862, 5), (27, 5));
  ((33557, 4), (199851, 5), (27, 5));
  ((336022, 5), (19984, 4), (28, 5));
  ((336474, 5), (199829, 5), (28, 5));
  ((336927, 5), (199818, 5), (28, 5));
  ((337382, 5), (199807, 5), (28, 5));
  ((337838, 5), (199796, 5), (28, 5));
  ((338295, 5), (199784, 5), (28, 5));
  ((338753, 5), (199773, 5), (28, 5));
  ((339213, 5), (199762, 5), (28, 5));
  ((339674, 5), (19975, 4), (29, 5));
  ((340136, 5), (199739, 5), (29, 5));
  ((340599, 5), (199727, 5), (29, 5));
  ((341064, 5), (199715, 5), (29, 5));
  ((34153, 4), (199704, 5), (29, 5));
  ((341997, 5), (199692, 5), (29, 5));
  ((342466, 5), (19968, 4), (29, 5));
  ((342936, 5), (199668, 5), (3, 4));
  ((343407, 5), (199657, 5), (3, 4));
  ((343879, 5), (199645, 5), (3, 4));
  ((344353, 5), (199633, 5), (3, 4));
  ((344828, 5), (199621, 5), (3, 4));
  ((345304, 5), (199609, 5), (3, 4));
  ((345781, 5), (199596, 5), (3, 4));
  ((34626, 4), (199584, 5), (3, 4));
  ((346741, 5), (199572, 5), (31, 5));
  ((347222, 5), (19956, 4), (31, 5));
  ((347705, 5), (199547, 5), (31, 5));
  ((348189, 5), (199535, 5), (31, 5));
  ((348675, 5), (199522, 5), (31, 5));
  ((349162, 5), (19951, 4), (31, 5));
  ((34965, 4), (199497, 5), (31, 5));
  ((35014, 4), (199485, 5), (32, 5));
  ((350631, 5), (199472, 5), (32, 5));
  ((351124, 5), (199459, 5), (32, 5));
  ((351617, 5), (199446, 5), (32, 5));
  ((352113, 5), (199433, 5), (32, 5));
  ((352609, 5), (19942, 4), (32, 5));
  ((353107, 5), (199407, 5), (32, 5));
  ((353607, 5), (199394, 5), (33, 5));
  ((354108, 5), (199381, 5), (33, 5));
  ((35461, 4), (199368, 5), (33, 5));
  ((355114, 5), (199355, 5), (33, 5));
  ((355619, 5), (199341, 5), (33, 5));
  ((356125, 5), (199328, 5), (33, 5));
  ((356633, 5), (199315, 5), (34, 5));
  ((357143, 5), (199301, 5), (34, 5));
  ((357654, 5), (199288, 5), (34, 5));
  ((358166, 5), (199274, 5), (34, 5));
  ((35868, 4), (19926, 4), (34, 5));
  ((359195, 5), (199246, 5), (34, 5));
  ((359712, 5), (199233, 5), (35, 5));
  ((360231, 5), (199219, 5), (35, 5));
  ((36075, 4), (199205, 5), (35, 5));
  ((361272, 5), (199191, 5), (35, 5));
  ((361795, 5), (199177, 5), (35, 5));
  ((362319, 5), (199162, 5), (35, 5));
  ((362845, 5), (199148, 5), (36, 5));
  ((363372, 5), (199134, 5), (36, 5));
  ((363901, 5), (19912, 4), (36, 5));
  ((364431, 5), (199105, 5), (36, 5));
  ((364964, 5), (199091, 5), (36, 5));
  ((365497, 5), (199076, 5), (36, 5));
  ((366032, 5), (199061, 5), (37, 5));
  ((366569, 5), (199047, 5), (37, 5));
  ((367107, 5), (199032, 5), (37, 5));
  ((367647, 5), (199017, 5), (37, 5));
  ((368189, 5), (199002, 5), (37, 5));
  ((368732, 5), (198987, 5), (37, 5));
  ((369276, 5), (198972, 5), (38, 5));
  ((369822, 5), (198957, 5), (38, 5));
  ((37037, 4), (198942, 5), (38, 5));
  ((37092, 4), (198926, 5), (38, 5));
  ((371471, 5), (198911, 5), (38, 5));
  ((372024, 5), (198896, 5), (39, 5));
  ((372578, 5), (19888, 4), (39, 5));
  ((373134, 5), (198864, 5), (39, 5));
  ((373692, 5), (198849, 5), (39, 5));
  ((374251, 5), (198833, 5), (39, 5));
  ((374813, 5), (198817, 5), (4, 4));
  ((375375, 5), (198801, 5), (4, 4));
  ((37594, 4), (198785, 5), (4, 4));
  ((376506, 5), (198769, 5), (4, 4));
  ((377074, 5), (198753, 5), (4, 4));
  ((377644, 5), (198737, 5), (41, 5));
  ((378215, 5), (19872, 4), (41, 5));
  ((378788, 5), (198704, 5), (41, 5));
  ((379363, 5), (198687, 5), (41, 5));
  ((379939, 5), (198671, 5), (41, 5));
  ((380518, 5), (198654, 5), (42, 5));
  ((381098, 5), (198637, 5), (42, 5));
  ((381679, 5), (198621, 5), (42, 5));
  ((382263, 5), (198604, 5), (42, 5));
  ((382848, 5), (198587, 5), (43, 5));
  ((383436, 5), (19857, 4), (43, 5));
  ((384025, 5), (198552, 5), (43, 5));
  ((384615, 5), (198535, 5), (43, 5));
  ((385208, 5), (198518, 5), (43, 5));
  ((385802, 5), (1985, 3), (44, 5));
  ((386399, 5), (198483, 5), (44, 5));
  ((386997, 5), (198465, 5), (44, 5));
  ((387597, 5), (198447, 5), (44, 5));
  ((388199, 5), (19843, 4), (45, 5));
  ((388802, 5), (198412, 5), (45, 5));
  ((389408, 5), (198394, 5), (45, 5));
  ((390016, 5), (198376, 5), (45, 5));
  ((390625, 5), (198357, 5), (45, 5));
  ((391236, 5), (198339, 5), (46, 5));
  ((39185, 4), (198321, 5), (46, 5));
  ((392465, 5), (198302, 5), (46, 5));
  ((393082, 5), (198284, 5), (46, 5));
  ((393701, 5), (198265, 5), (47, 5));
  ((394322, 5), (198246, 5), (47, 5));
  ((394945, 5), (198227, 5), (47, 5));
  ((39557, 4), (198208, 5), (47, 5));
  ((396197, 5), (198189, 5), (48, 5));
  ((396825, 5), (19817, 4), (48, 5));
  ((397456, 5), (198151, 5), (48, 5));
  ((398089, 5), (198131, 5), (48, 5));
  ((398724, 5), (198112, 5), (49, 5));
  ((399361, 5), (198092, 5), (49, 5));
  ((4, 0), (198073, 5), (49, 5));
  ((400641, 5), (198053, 5), (5, 4));
  ((401284, 5), (198033, 5), (5, 4));
  ((401929, 5), (198013, 5), (5, 4));
  ((402576, 5), (197993, 5), (5, 4));
  ((403226, 5), (197973, 5), (51, 5));
  ((403877, 5), (197952, 5), (51, 5));
  ((404531, 5), (197932, 5), (51, 5));
  ((405186, 5), (197911, 5), (51, 5));
  ((405844, 5), (19789, 4), (52, 5));
  ((406504, 5), (19787, 4), (52, 5));
  ((407166, 5), (197849, 5), (52, 5));
  ((40783, 4), (197828, 5), (53, 5));
  ((408497, 5), (197806, 5), (53, 5));
  ((409165, 5), (197785, 5), (53, 5));
  ((409836, 5), (197764, 5), (54, 5));
  ((410509, 5), (197742, 5), (54, 5));
  ((411184, 5), (197721, 5), (54, 5));
  ((411862, 5), (197699, 5), (54, 5));
  ((412541, 5), (197677, 5), (55, 5));
  ((413223, 5), (197655, 5), (55, 5));
  ((413907, 5), (197633, 5), (55, 5));
  ((414594, 5), (197611, 5), (56, 5));
  ((415282, 5), (197588, 5), (56, 5));
  ((415973, 5), (197566, 5), (56, 5));
  ((416667, 5), (197543, 5), (57, 5));
  ((417362, 5), (19752, 4), (57, 5));
  ((41806, 4), (197497, 5), (57, 5));
  ((41876, 4), (197474, 5), (58, 5));
  ((419463, 5), (197451, 5), (58, 5));
  ((420168, 5), (197428, 5), (58, 5));
  ((420875, 5), (197405, 5), (59, 5));
  ((421585, 5), (197381, 5), (59, 5));
  ((422297, 5), (197357, 5), (59, 5));
  ((423012, 5), (197333, 5), (6, 4));
  ((423729, 5), (19731, 4), (6, 4));
  ((424448, 5), (197285, 5), (6, 4));
  ((42517, 4), (197261, 5), (61, 5));
  ((425894, 5), (197237, 5), (61, 5));
  ((426621, 5), (197212, 5), (61, 5));
  ((42735, 4), (197188, 5), (62, 5));
  ((428082, 5), (197163, 5), (62, 5));
  ((428816, 5), (197138, 5), (63, 5));
  ((429553, 5), (197113, 5), (63, 5));
  ((430293, 5), (197087, 5), (63, 5));
  ((431034, 5), (197062, 5), (64, 5));
  ((431779, 5), (197036, 5), (64, 5));
  ((432526, 5), (197011, 5), (64, 5));
  ((433276, 5), (196985, 5), (65, 5));
  ((434028, 5), (196959, 5), (65, 5));
  ((434783, 5), (196932, 5), (66, 5));
  ((43554, 4), (196906, 5), (66, 5));
  ((4363, 3), (19688, 4), (66, 5));
  ((437063, 5), (196853, 5), (67, 5));
  ((437828, 5), (196826, 5), (67, 5));
  ((438596, 5), (196799, 5), (68, 5));
  ((439367, 5), (196772, 5), (68, 5));
  ((440141, 5), (196745, 5), (69, 5));
  ((440917, 5), (196717, 5), (69, 5));
  ((441696, 5), (196689, 5), (69, 5));
  ((442478, 5), (196662, 5), (7, 4));
  ((443262, 5), (196634, 5), (7, 4));
  ((44405, 4), (196605, 5), (71, 5));
  ((44484, 4), (196577, 5), (71, 5));
  ((445633, 5), (196548, 5), (72, 5));
  ((446429, 5), (19652, 4), (72, 5));
  ((447227, 5), (196491, 5), (72, 5));
  ((448029, 5), (196462, 5), (73, 5));
  ((448833, 5), (196433, 5), (73, 5));
  ((44964, 4), (196403, 5), (74, 5));
  ((45045, 4), (196373, 5), (74, 5));
  ((451264, 5), (196344, 5), (75, 5));
  ((45208, 4), (196314, 5), (75, 5));
  ((452899, 5), (196283, 5), (76, 5));
  ((453721, 5), (196253, 5), (76, 5));
  ((454545, 5), (196222, 5), (77, 5));
  ((455373, 5), (196192, 5), (77, 5));
  ((456204, 5), (196161, 5), (78, 5));
  ((457038, 5), (19613, 4), (78, 5));
  ((457875, 5), (196098, 5), (79, 5));
  ((458716, 5), (196067, 5), (79, 5));
  ((459559, 5), (196035, 5), (8, 4));
  ((460405, 5), (196003, 5), (8, 4));
  ((461255, 5), (195971, 5), (81, 5));
  ((462107, 5), (195938, 5), (81, 5));
  ((462963, 5), (195906, 5), (82, 5));
  ((463822, 5), (195873, 5), (82, 5));
  ((464684, 5), (19584, 4), (83, 5));
  ((465549, 5), (195806, 5), (84, 5));
  ((466418, 5), (195773, 5), (84, 5));
  ((46729, 4), (195739, 5), (85, 5));
  ((468165, 5), (195705, 5), (85, 5));
  ((469043, 5), (195671, 5), (86, 5));
  ((469925, 5), (195637, 5), (86, 5));
  ((47081, 4), (195602, 5), (87, 5));
  ((471698, 5), (195567, 5), (88, 5));
  ((47259, 4), (195532, 5), (88, 5));
  ((473485, 5), (195497, 5), (89, 5));
  ((474383, 5), (195461, 5), (89, 5));
  ((475285, 5), (195425, 5), (9, 4));
  ((47619, 4), (195389, 5), (91, 5));
  ((477099, 5), (195353, 5), (91, 5));
  ((478011, 5), (195316, 5), (92, 5));
  ((478927, 5), (19528, 4), (92, 5));
  ((479846, 5), (195243, 5), (93, 5));
  ((480769, 5), (195205, 5), (94, 5));
  ((481696, 5), (195168, 5), (94, 5));
  ((482625, 5), (19513, 4), (95, 5));
  ((483559, 5), (195092, 5), (96, 5));
  ((484496, 5), (195053, 5), (96, 5));
  ((485437, 5), (195015, 5), (97, 5));
  ((486381, 5), (194976, 5), (98, 5));
  ((487329, 5), (194937, 5), (99, 5));
  ((488281, 5), (194897, 5), (99, 5));
  ((489237, 5), (194858, 5), (1, 3));
  ((490196, 5), (194818, 5), (101, 5));
  ((491159, 5), (194777, 5), (101, 5));
  ((492126, 5), (194737, 5), (102, 5));
  ((493097, 5), (194696, 5), (103, 5));
  ((494071, 5), (194655, 5), (104, 5));
  ((49505, 4), (194613, 5), (104, 5));
  ((496032, 5), (194571, 5), (105, 5));
  ((497018, 5), (194529, 5), (106, 5));
  ((498008, 5), (194487, 5), (107, 5));
  ((499002, 5), (194444, 5), (107, 5));
  ((5, 0), (194401, 5), (108, 5));
  ((501002, 5), (194358, 5), (109, 5));
  ((502008, 5), (194314, 5), (11, 4));
  ((503018, 5), (194271, 5), (111, 5));
  ((504032, 5), (194226, 5), (111, 5));
  ((505051, 5), (194182, 5), (112, 5));
  ((506073, 5), (194137, 5), (113, 5));
  ((507099, 5), (194091, 5), (114, 5));
  ((50813, 4), (194046, 5), (115, 5));
  ((509165, 5), (194, 2), (116, 5));
  ((510204, 5), (193954, 5), (117, 5));
  ((511247, 5), (193907, 5), (118, 5));
  ((512295, 5), (19386, 4), (118, 5));
  ((513347, 5), (193813, 5), (119, 5));
  ((514403, 5), (193765, 5), (12, 4));
  ((515464, 5), (193717, 5), (121, 5));
  ((516529, 5), (193669, 5), (122, 5));
  ((517598, 5), (19362, 4), (123, 5));
  ((518672, 5), (193571, 5), (124, 5));
  ((519751, 5), (193521, 5), (125, 5));
  ((520833, 5), (193471, 5), (126, 5));
  ((521921, 5), (193421, 5), (127, 5));
  ((523013, 5), (19337, 4), (128, 5));
  ((524109, 5), (193319, 5), (129, 5));
  ((52521, 4), (193267, 5), (13, 4));
  ((526316, 5), (193215, 5), (131, 5));
  ((527426, 5), (193163, 5), (132, 5));
  ((528541, 5), (19311, 4), (133, 5));
  ((529661, 5), (193057, 5), (134, 5));
  ((530786, 5), (193004, 5), (135, 5));
  ((531915, 5), (19295, 4), (136, 5));
  ((533049, 5), (192895, 5), (138, 5));
  ((534188, 5), (19284, 4), (139, 5));
  ((535332, 5), (192785, 5), (14, 4));
  ((536481, 5), (192729, 5), (141, 5));
  ((537634, 5), (192673, 5), (142, 5));
  ((538793, 5), (192616, 5), (143, 5));
  ((539957, 5), (192559, 5), (145, 5));
  ((541126, 5), (192501, 5), (146, 5));
  ((542299, 5), (192443, 5), (147, 5));
  ((543478, 5), (192385, 5), (148, 5));
  ((544662, 5), (192326, 5), (149, 5));
  ((545852, 5), (192266, 5), (151, 5));
  ((547046, 5), (192206, 5), (152, 5));
  ((548246, 5), (192146, 5), (153, 5));
  ((549451, 5), (192085, 5), (155, 5));
  ((550661, 5), (192023, 5), (156, 5));
  ((551876, 5), (191961, 5), (157, 5));
  ((553097, 5), (191898, 5), (159, 5));
  ((554324, 5), (191835, 5), (16, 4));
  ((555556, 5), (191771, 5), (161, 5));
  ((556793, 5), (191707, 5), (163, 5));
  ((558036, 5), (191642, 5), (164, 5));
  ((559284, 5), (191577, 5), (166, 5));
  ((560538, 5), (191511, 5), (167, 5));
  ((561798, 5), (191445, 5), (169, 5));
  ((563063, 5), (191378, 5), (17, 4));
  ((564334, 5), (19131, 4), (172, 5));
  ((565611, 5), (191242, 5), (173, 5));
  ((566893, 5), (191173, 5), (175, 5));
  ((568182, 5), (191103, 5), (176, 5));
  ((569476, 5), (191033, 5), (178, 5));
  ((570776, 5), (190962, 5), (18, 4));
  ((572082, 5), (190891, 5), (181, 5));
  ((573394, 5), (190819, 5), (183, 5));
  ((574713, 5), (190747, 5), (185, 5));
  ((576037, 5), (190673, 5), (186, 5));
  ((577367, 5), (190599, 5), (188, 5));
  ((578704, 5), (190525, 5), (19, 4));
  ((580046, 5), (190449, 5), (192, 5));
  ((581395, 5), (190373, 5), (193, 5));
  ((582751, 5), (190297, 5), (195, 5));
  ((584112, 5), (190219, 5), (197, 5));
  ((58548, 4), (190141, 5), (199, 5));
  ((586854, 5), (190062, 5), (201, 5));
  ((588235, 5), (189983, 5), (203, 5));
  ((589623, 5), (189902, 5), (205, 5));
  ((591017, 5), (189821, 5), (207, 5));
  ((592417, 5), (189739, 5), (209, 5));
  ((593824, 5), (189656, 5), (211, 5));
  ((595238, 5), (189573, 5), (213, 5));
  ((596659, 5), (189489, 5), (215, 5));
  ((598086, 5), (189404, 5), (217, 5));
  ((59952, 4), (189318, 5), (219, 5));
  ((600962, 5), (189231, 5), (221, 5));
  ((60241, 4), (189143, 5), (224, 5));
  ((603865, 5), (189055, 5), (226, 5));
  ((605327, 5), (188966, 5), (228, 5));
  ((606796, 5), (188876, 5), (23, 4));
  ((608273, 5), (188784, 5), (233, 5));
  ((609756, 5), (188692, 5), (235, 5));
  ((611247, 5), (1886, 3), (238, 5));
  ((612745, 5), (188506, 5), (24, 4));
  ((614251, 5), (188411, 5), (243, 5));
  ((615764, 5), (188315, 5), (245, 5));
  ((617284, 5), (188218, 5), (248, 5));
  ((618812, 5), (188121, 5), (25, 4));
  ((620347, 5), (188022, 5), (253, 5));
  ((621891, 5), (187922, 5), (256, 5));
  ((623441, 5), (187821, 5), (258, 5));
  ((625, 2), (18772, 4), (261, 5));
  ((626566, 5), (187617, 5), (264, 5));
  ((628141, 5), (187513, 5), (267, 5));
  ((629723, 5), (187408, 5), (27, 4));
  ((631313, 5), (187302, 5), (273, 5));
  ((632911, 5), (187194, 5), (276, 5));
  ((634518, 5), (187086, 5), (279, 5));
  ((636132, 5), (186976, 5), (282, 5));
  ((637755, 5), (186865, 5), (285, 5));
  ((639386, 5), (186753, 5), (288, 5));
  ((641026, 5), (18664, 4), (292, 5));
  ((642674, 5), (186526, 5), (295, 5));
  ((64433, 4), (18641, 4), (298, 5));
  ((645995, 5), (186293, 5), (302, 5));
  ((647668, 5), (186175, 5), (305, 5));
  ((649351, 5), (186055, 5), (309, 5));
  ((651042, 5), (185934, 5), (312, 5));
  ((652742, 5), (185812, 5), (316, 5));
  ((65445, 4), (185688, 5), (32, 4));
  ((656168, 5), (185563, 5), (324, 5));
  ((657895, 5), (185436, 5), (327, 5));
  ((659631, 5), (185308, 5), (331, 5));
  ((661376, 5), (185179, 5), (335, 5));
  ((66313, 4), (185048, 5), (339, 5));
  ((664894, 5), (184915, 5), (344, 5));
  ((666667, 5), (184781, 5), (348, 5));
  ((668449, 5), (184645, 5), (352, 5));
  ((670241, 5), (184508, 5), (356, 5));
  ((672043, 5), (184369, 5), (361, 5));
  ((673854, 5), (184228, 5), (365, 5));
  ((675676, 5), (184086, 5), (37, 4));
  ((677507, 5), (183942, 5), (375, 5));
  ((679348, 5), (183796, 5), (38, 4));
  ((681199, 5), (183649, 5), (384, 5));
  ((68306, 4), (183499, 5), (389, 5));
  ((684932, 5), (183348, 5), (395, 5));
  ((686813, 5), (183195, 5), (4, 3));
  ((688705, 5), (18304, 4), (405, 5));
  ((690608, 5), (182883, 5), (41, 4));
  ((692521, 5), (182724, 5), (416, 5));
  ((694444, 5), (182563, 5), (422, 5));
  ((696379, 5), (1824, 3), (427, 5));
  ((698324, 5), (182234, 5), (433, 5));
  ((70028, 4), (182067, 5), (439, 5));
  ((702247, 5), (181897, 5), (445, 5));
  ((704225, 5), (181726, 5), (451, 5));
  ((706215, 5), (181552, 5), (458, 5));
  ((708215, 5), (181375, 5), (464, 5));
  ((710227, 5), (181196, 5), (471, 5));
  ((712251, 5), (181015, 5), (477, 5));
  ((714286, 5), (180832, 5), (484, 5));
  ((716332, 5), (180645, 5), (491, 5));
  ((718391, 5), (180457, 5), (499, 5));
  ((720461, 5), (180266, 5), (506, 5));
  ((722543, 5), (180072, 5), (514, 5));
  ((724638, 5), (179875, 5), (521, 5));
  ((726744, 5), (179675, 5), (529, 5));
  ((728863, 5), (179473, 5), (537, 5));
  ((730994, 5), (179268, 5), (545, 5));
  ((733138, 5), (17906, 4), (554, 5));
  ((735294, 5), (178849, 5), (563, 5));
  ((737463, 5), (178634, 5), (571, 5));
  ((739645, 5), (178417, 5), (58, 4));
  ((74184, 4), (178197, 5), (59, 4));
  ((744048, 5), (177973, 5), (599, 5));
  ((746269, 5), (177745, 5), (609, 5));
  ((748503, 5), (177515, 5), (619, 5));
  ((750751, 5), (17728, 4), (629, 5));
  ((753012, 5), (177043, 5), (64, 4));
  ((755287, 5), (176801, 5), (65, 4));
  ((757576, 5), (176556, 5), (661, 5));
  ((759878, 5), (176307, 5), (673, 5));
  ((762195, 5), (176054, 5), (684, 5));
  ((764526, 5), (175797, 5), (696, 5));
  ((766871, 5), (175536, 5), (709, 5));
  ((769231, 5), (17527, 4), (721, 5));
  ((771605, 5), (175, 2), (734, 5));
  ((773994, 5), (174726, 5), (748, 5));
  ((776398, 5), (174447, 5), (761, 5));
  ((778816, 5), (174164, 5), (775, 5));
  ((78125, 4), (173876, 5), (79, 4));
  ((783699, 5), (173583, 5), (805, 5));
  ((786164, 5), (173284, 5), (82, 4));
  ((788644, 5), (172981, 5), (836, 5));
  ((791139, 5), (172673, 5), (852, 5));
  ((793651, 5), (172358, 5), (869, 5));
  ((796178, 5), (172039, 5), (886, 5));
  ((798722, 5), (171713, 5), (904, 5));
  ((801282, 5), (171382, 5), (922, 5));
  ((803859, 5), (171045, 5), (941, 5));
  ((806452, 5), (170701, 5), (961, 5));
  ((809061, 5), (170351, 5), (981, 5));
  ((811688, 5), (169995, 5), (1002, 5));
  ((814332, 5), (169631, 5), (1024, 5));
  ((816993, 5), (169261, 5), (1046, 5));
  ((819672, 5), (168884, 5), (1069, 5));
  ((822368, 5), (168499, 5), (1093, 5));
  ((825083, 5), (168106, 5), (1118, 5));
  ((827815, 5), (167706, 5), (1144, 5));
  ((830565, 5), (167298, 5), (1171, 5));
  ((833333, 5), (166881, 5), (1198, 5));
  ((83612, 4), (166455, 5), (1227, 5));
  ((838926, 5), (166021, 5), (1257, 5));
  ((841751, 5), (165578, 5), (1288, 5));
  ((844595, 5), (165125, 5), (132, 4));
  ((847458, 5), (164662, 5), (1354, 5));
  ((85034, 4), (16419, 4), (1389, 5));
  ((853242, 5), (163706, 5), (1425, 5));
  ((856164, 5), (163212, 5), (1463, 5));
  ((859107, 5), (162707, 5), (1503, 5));
  ((862069, 5), (162191, 5), (1544, 5));
  ((865052, 5), (161662, 5), (1587, 5));
  ((868056, 5), (161121, 5), (1632, 5));
  ((87108, 4), (160567, 5), (1679, 5));
  ((874126, 5), (159999, 5), (1728, 5));
  ((877193, 5), (159418, 5), (178, 4));
  ((880282, 5), (158823, 5), (1834, 5));
  ((883392, 5), (158212, 5), (1891, 5));
  ((886525, 5), (157586, 5), (1951, 5));
  ((88968, 4), (156944, 5), (2013, 5));
  ((892857, 5), (156285, 5), (2079, 5));
  ((896057, 5), (155608, 5), (2149, 5));
  ((899281, 5), (154913, 5), (2222, 5));
  ((902527, 5), (154199, 5), (23, 3));
  ((905797, 5), (153466, 5), (2382, 5));
  ((909091, 5), (152712, 5), (2468, 5));
  ((912409, 5), (151936, 5), (256, 4));
  ((915751, 5), (151137, 5), (2657, 5));
  ((919118, 5), (150315, 5), (2761, 5));
  ((922509, 5), (149468, 5), (2871, 5));
  ((925926, 5), (148596, 5), (2987, 5));
  ((929368, 5), (147696, 5), (3112, 5));
  ((932836, 5), (146768, 5), (3245, 5));
  ((93633, 4), (145811, 5), (3387, 5));
  ((93985, 4), (144822, 5), (354, 4));
  ((943396, 5), (1438, 3), (3703, 5));
  ((94697, 4), (142744, 5), (3878, 5));
  ((95057, 4), (141651, 5), (4067, 5));
  ((954198, 5), (14052, 4), (427, 4));
  ((957854, 5), (139349, 5), (449, 4));
  ((961538, 5), (138136, 5), (4727, 5));
  ((965251, 5), (136879, 5), (4984, 5));
  ((968992, 5), (135574, 5), (5263, 5));
  ((972763, 5), (13422, 4), (5567, 5));
  ((976563, 5), (132814, 5), (5898, 5));
  ((980392, 5), (131353, 5), (6259, 5));
  ((984252, 5), (129834, 5), (6655, 5));
  ((988142, 5), (128254, 5), (7088, 5));
  ((992063, 5), (12661, 4), (7564, 5));
  ((996016, 5), (124899, 5), (8089, 5));
  ((10, 0), (123117, 5), (8668, 5));
  ((1004016, 5), (121261, 5), (9308, 5));
  ((1008065, 5), (119329, 5), (10017, 5));
  ((1012146, 5), (117317, 5), (10805, 5));
  ((101626, 4), (115223, 5), (11681, 5));
  ((1020408, 5), (113045, 5), (12658, 5));
  ((102459, 4), (110782, 5), (13749, 5));
  ((1028807, 5), (108435, 5), (1497, 4));
  ((1033058, 5), (106005, 5), (16336, 5));
  ((1037344, 5), (103499, 5), (17868, 5));
  ((1041667, 5), (100922, 5), (19585, 5));
  ((1046025, 5), (98287, 5), (21511, 5));
  ((105042, 4), (95611, 5), (23667, 5));
  ((1054852, 5), (92917, 5), (26076, 5));
  ((1059322, 5), (90236, 5), (28758, 5));
  ((106383, 4), (87604, 5), (31728, 5));
  ((1068376, 5), (85067, 5), (34993, 5));
  ((1072961, 5), (82671, 5), (38551, 5));
  ((1077586, 5), (80467, 5), (42383, 5));
  ((1082251, 5), (78498, 5), (46461, 5));
  ((1086957, 5), (76798, 5), (50742, 5));
  ((1091703, 5), (75389, 5), (5518, 4));
  ((1096491, 5), (74276, 5), (59725, 5));
  ((1101322, 5), (73454, 5), (64333, 5));
  ((1106195, 5), (72908, 5), (68967, 5));
  ((1111111, 5), (72617, 5), (736, 3));
  ((1116071, 5), (7256, 4), (78213, 5));
  ((1121076, 5), (72717, 5), (82792, 5));
  ((1126126, 5), (73068, 5), (87332, 5));
  ((1131222, 5), (73599, 5), (91828, 5));
  ((1136364, 5), (74298, 5), (96278, 5));
  ((1141553, 5), (75154, 5), (100683, 5));
  ((1146789, 5), (76158, 5), (10504, 4));
  ((1152074, 5), (77303, 5), (109351, 5));
  ((1157407, 5), (78583, 5), (113614, 5));
  ((1162791, 5), (7999, 4), (117832, 5));
  ((1168224, 5), (81518, 5), (122006, 5));
  ((1173709, 5), (83162, 5), (126139, 5));
  ((1179245, 5), (8492, 4), (130238, 5));
  ((1184834, 5), (8679, 4), (134309, 5));
  ((1190476, 5), (88774, 5), (138357, 5));
  ((1196172, 5), (90879, 5), (142389, 5));
  ((1201923, 5), (93114, 5), (146408, 5));
  ((1207729, 5), (9549, 4), (150416, 5));
  ((1213592, 5), (98023, 5), (154407, 5));
  ((1219512, 5), (100724, 5), (158372, 5));
  ((122549, 4), (103606, 5), (162298, 5));
  ((1231527, 5), (106677, 5), (166165, 5));
  ((1237624, 5), (109939, 5), (169952, 5));
  ((1243781, 5), (113389, 5), (173637, 5));
  ((125, 1), (117019, 5), (1772, 3));
  ((1256281, 5), (120815, 5), (180623, 5));
  ((1262626, 5), (124761, 5), (183891, 5));
  ((1269036, 5), (128836, 5), (186995, 5));
  ((127551, 4), (133021, 5), (189931, 5));
  ((1282051, 5), (137296, 5), (192701, 5));
  ((128866, 4), (141643, 5), (19531, 4));
  ((1295337, 5), (146046, 5), (197768, 5));
  ((1302083, 5), (150496, 5), (200091, 5));
  ((1308901, 5), (154987, 5), (202297, 5));
  ((1315789, 5), (159524, 5), (204403, 5));
  ((1322751, 5), (164118, 5), (206426, 5));
  ((1329787, 5), (168788, 5), (208377, 5));
  ((1336898, 5), (173559, 5), (210258, 5));
  ((1344086, 5), (17846, 4), (212061, 5));
  ((1351351, 5), (183517, 5), (213766, 5));
  ((1358696, 5), (18875, 4), (215339, 5));
  ((136612, 4), (19417, 4), (216738, 5));
  ((1373626, 5), (199769, 5), (217916, 5));
  ((1381215, 5), (205527, 5), (218826, 5));
  ((1388889, 5), (211403, 5), (21943, 4));
  ((1396648, 5), (217347, 5), (219702, 5));
  ((1404494, 5), (223302, 5), (219635, 5));
  ((1412429, 5), (229211, 5), (219244, 5));
  ((1420455, 5), (235028, 5), (218559, 5));
  ((1428571, 5), (240723, 5), (217626, 5))].

(** nidn/materials/data/aluminium_oxide.csv, lines 2-613 *)
Definition aluminium_oxide : list line :=
 [((21, 2), (1831, 3), (-52, 3));
  ((22, 2), (1817, 3), (-39, 3));
  ((23, 2), (1805, 3), (-26, 3));
  ((24, 2), (1793, 3), (-19, 3));
  ((25, 2), (1789, 3), (-16, 3));
  ((26, 2), (1779, 3), (-1, 2));
  ((27, 2), (1776, 3), (-4, 3));
  ((28, 2), (1772, 3), (-1, 3));
  ((29, 2), (1767, 3), (1, 3));
  ((3, 1), (1762, 3), (7, 3));
  ((31, 2), (1762, 3), (1, 2));
  ((32, 2), (1762, 3), (12, 3));
  ((33, 2), (1761, 3), (13, 3));
  ((34, 2), (176, 2), (14, 3));
  ((35, 2), (1758, 3), (15, 3));
  ((36, 2), (1757, 3), (17, 3));
  ((37, 2), (1757, 3), (18, 3));
  ((38, 2), (1757, 3), (18, 3));
  ((39, 2), (1757, 3), (19, 3));
  ((4, 1), (1756, 3), (19, 3));
  ((41, 2), (1755, 3), (19, 3));
  ((42, 2), (1754, 3), (19, 3));
  ((43, 2), (1754, 3), (2, 2));
  ((44, 2), (1754, 3), (21, 3));
  ((45, 2), (1754, 3), (21, 3));
  ((46, 2), (1754, 3), (21, 3));
  ((47, 2), (1754, 3), (21, 3));
  ((48, 2), (1754, 3), (21, 3));
  ((49, 2), (1754, 3), (21, 3));
  ((5, 1), (1754, 3), (21, 3));
  ((51, 2), (1753, 3), (21, 3));
  ((52, 2), (1753, 3), (21, 3));
  ((53, 2), (1753, 3), (2, 2));
  ((54, 2), (1753, 3), (21, 3));
  ((55, 2), (1753, 3), (21, 3));
  ((56, 2), (1752, 3), (2, 2));
  ((57, 2), (1752, 3), (21, 3));
  ((58, 2), (1752, 3), (2, 2));
  ((59, 2), (1752, 3), (2, 2));
  ((6, 1), (1752, 3), (2, 2));
  ((61, 2), (1751, 3), (2, 2));
  ((62, 2), (1751, 3), (21, 3));
  ((63, 2), (1751, 3), (2, 2));
  ((64, 2), (1751, 3), (2, 2));
  ((65, 2), (1751, 3), (2, 2));
  ((66, 2), (1751, 3), (2, 2));
  ((67, 2), (1751, 3), (2, 2));
  ((68, 2), (1751, 3), (2, 2));
  ((69, 2), (1751, 3), (21, 3));
  ((7, 1), (1751, 3), (2, 2));
  ((71, 2), (1751, 3), (2, 2));
  ((72, 2), (1751, 3), (2, 2));
  ((73, 2), (175, 2), (2, 2));
  ((74, 2), (175, 2), (2, 2));
  ((75, 2), (175, 2), (2, 2));
  ((76, 2), (175, 2), (2, 2));
  ((77, 2), (175, 2), (2, 2));
  ((78, 2), (175, 2), (2, 2));
  ((79, 2), (175, 2), (2, 2));
  ((8, 1), (175, 2), (2, 2));
  ((81, 2), (175, 2), (2, 2));
  ((82, 2), (175, 2), (2, 2));
  ((83, 2), (175, 2), (2, 2));
  ((84, 2), (175, 2), (2, 2));
  ((85, 2), (175, 2), (2, 2));
  ((86, 2), (175, 2), (2, 2));
  ((87, 2), (175, 2), (2, 2));
  ((88, 2), (175, 2), (2, 2));
  ((89, 2), (175, 2), (2, 2));
  ((9, 1), (175, 2), (2, 2));
  ((91, 2), (175, 2), (2, 2));
  ((92, 2), (175, 2), (2, 2));
  ((93, 2), (175, 2), (2, 2));
  ((94, 2), (175, 2), (2, 2));
  ((95, 2), (175, 2), (2, 2));
  ((96, 2), (175, 2), (2, 2));
  ((97, 2), (175, 2), (2, 2));
  ((98, 2), (175, 2), (2, 2));
  ((99, 2), (1749, 3), (2, 2));
  ((1, 0), (1749, 3), (2, 2));
  ((101, 2), (1749, 3), (2, 2));
  ((102, 2), (1749, 3), (2, 2));
  ((103, 2), (1749, 3), (2, 2));
  ((104, 2), (1749, 3), (2, 2));
  ((105, 2), (1749, 3), (2, 2));
  ((106, 2), (1749, 3), (2, 2));
  ((107, 2), (1749, 3), (2, 2));
  ((108, 2), (1749, 3), (2, 2));
  ((109, 2), (1749, 3), (2, 2));
  ((11, 1), (1749, 3), (2, 2));
  ((111, 2), (1749, 3), (2, 2));
  ((112, 2), (1749, 3), (2, 2));
  ((113, 2), (1749, 3), (2, 2));
  ((114, 2), (1749, 3), (2, 2));
  ((115, 2), (1749, 3), (2, 2));
  ((116, 2), (1749, 3), (2, 2));
  ((117, 2), (1749, 3), (2, 2));
  ((118, 2), (1749, 3), (2, 2));
  ((119, 2), (1749, 3), (2, 2));
  ((12, 1), (1749, 3), (21, 3));
  ((121, 2), (1749, 3), (21, 3));
  ((122, 2), (1749, 3), (2, 2));
  ((123, 2), (1749, 3), (21, 3));
  ((124, 2), (1749, 3), (2, 2));
  ((125, 2), (1749, 3), (2, 2));
  ((126, 2), (1749, 3), (2, 2));
  ((127, 2), (1749, 3), (19, 3));
  ((128, 2), (1749, 3), (19, 3));
  ((129, 2), (1749, 3), (19, 3));
  ((13, 1), (1749, 3), (19, 3));
  ((131, 2), (1748, 3), (19, 3));
  ((132, 2), (1748, 3), (19, 3));
  ((133, 2), (1748, 3), (19, 3));
  ((134, 2), (1748, 3), (19, 3));
  ((135, 2), (1748, 3), (19, 3));
  ((136, 2), (1748, 3), (2, 2));
  ((137, 2), (1748, 3), (19, 3));
  ((138, 2), (1748, 3), (2, 2));
  ((139, 2), (1749, 3), (2, 2));
  ((14, 1), (1748, 3), (2, 2));
  ((141, 2), (1748, 3), (2, 2));
  ((142, 2), (1748, 3), (19, 3));
  ((143, 2), (1748, 3), (19, 3));
  ((144, 2), (1748, 3), (19, 3));
  ((145, 2), (1748, 3), (2, 2));
  ((146, 2), (1748, 3), (19, 3));
  ((147, 2), (1748, 3), (19, 3));
  ((148, 2), (1748, 3), (18, 3));
  ((149, 2), (1747, 3), (19, 3));
  ((15, 1), (1747, 3), (19, 3));
  ((151, 2), (1747, 3), (18, 3));
  ((152, 2), (1747, 3), (18, 3));
  ((153, 2), (1746, 3), (18, 3));
  ((154, 2), (1746, 3), (19, 3));
  ((155, 2), (1747, 3), (18, 3));
  ((156, 2), (1746, 3), (18, 3));
  ((157, 2), (1746, 3), (18, 3));
  ((158, 2), (1745, 3), (18, 3));
  ((159, 2), (1745, 3), (16, 3));
  ((16, 1), (1745, 3), (18, 3));
  ((161, 2), (1745, 3), (18, 3));
  ((162, 2), (1745, 3), (18, 3));
  ((163, 2), (1744, 3), (18, 3));
  ((164, 2), (1744, 3), (18, 3));
  ((165, 2), (1744, 3), (19, 3));
  ((166, 2), (1744, 3), (19, 3));
  ((167, 2), (1744, 3), (19, 3));
  ((168, 2), (1744, 3), (19, 3));
  ((169, 2), (1744, 3), (19, 3));
  ((17, 1), (1744, 3), (19, 3));
  ((171, 2), (1744, 3), (19, 3));
  ((172, 2), (1744, 3), (19, 3));
  ((173, 2), (1744, 3), (19, 3));
  ((174, 2), (1743, 3), (18, 3));
  ((175, 2), (1743, 3), (19, 3));
  ((176, 2), (1743, 3), (19, 3));
  ((177, 2), (1744, 3), (18, 3));
  ((178, 2), (1744, 3), (18, 3));
  ((179, 2), (1743, 3), (17, 3));
  ((18, 1), (1743, 3), (17, 3));
  ((181, 2), (1742, 3), (17, 3));
  ((182, 2), (1742, 3), (18, 3));
  ((183, 2), (1742, 3), (17, 3));
  ((184, 2), (1741, 3), (17, 3));
  ((185, 2), (174, 2), (17, 3));
  ((186, 2), (1739, 3), (18, 3));
  ((187, 2), (1739, 3), (19, 3));
  ((188, 2), (174, 2), (2, 2));
  ((189, 2), (1741, 3), (2, 2));
  ((19, 1), (1741, 3), (2, 2));
  ((191, 2), (1741, 3), (19, 3));
  ((192, 2), (1741, 3), (19, 3));
  ((193, 2), (1741, 3), (19, 3));
  ((194, 2), (1741, 3), (19, 3));
  ((195, 2), (1741, 3), (19, 3));
  ((196, 2), (1741, 3), (19, 3));
  ((197, 2), (174, 2), (18, 3));
  ((198, 2), (174, 2), (18, 3));
  ((199, 2), (1739, 3), (18, 3));
  ((2, 0), (1739, 3), (18, 3));
  ((201, 2), (1739, 3), (18, 3));
  ((202, 2), (1738, 3), (18, 3));
  ((203, 2), (1738, 3), (18, 3));
  ((204, 2), (1737, 3), (18, 3));
  ((205, 2), (1737, 3), (19, 3));
  ((206, 2), (1737, 3), (19, 3));
  ((207, 2), (1737, 3), (19, 3));
  ((208, 2), (1737, 3), (19, 3));
  ((209, 2), (1737, 3), (19, 3));
  ((21, 1), (1737, 3), (18, 3));
  ((211, 2), (1736, 3), (18, 3));
  ((212, 2), (1736, 3), (18, 3));
  ((213, 2), (1736, 3), (19, 3));
  ((214, 2), (1735, 3), (19, 3));
  ((215, 2), (1735, 3), (19, 3));
  ((216, 2), (1735, 3), (19, 3));
  ((217, 2), (1735, 3), (2, 2));
  ((218, 2), (1735, 3), (19, 3));
  ((219, 2), (1735, 3), (19, 3));
  ((22, 1), (1734, 3), (19, 3));
  ((221, 2), (1734, 3), (2, 2));
  ((222, 2), (1734, 3), (2, 2));
  ((223, 2), (1734, 3), (21, 3));
  ((224, 2), (1734, 3), (2, 2));
  ((225, 2), (1734, 3), (2, 2));
  ((226, 2), (1734, 3), (21, 3));
  ((227, 2), (1734, 3), (2, 2));
  ((228, 2), (1734, 3), (2, 2));
  ((229, 2), (1734, 3), (2, 2));
  ((23, 1), (1734, 3), (2, 2));
  ((231, 2), (1733, 3), (2, 2));
  ((232, 2), (1733, 3), (2, 2));
  ((233, 2), (1733, 3), (2, 2));
  ((234, 2), (1733, 3), (2, 2));
  ((235, 2), (1733, 3), (2, 2));
  ((236, 2), (1733, 3), (2, 2));
  ((237, 2), (1732, 3), (2, 2));
  ((238, 2), (1732, 3), (21, 3));
  ((239, 2), (1732, 3), (2, 2));
  ((24, 1), (1732, 3), (21, 3));
  ((241, 2), (1732, 3), (2, 2));
  ((242, 2), (1732, 3), (2, 2));
  ((243, 2), (1732, 3), (2, 2));
  ((244, 2), (1732, 3), (19, 3));
  ((245, 2), (1732, 3), (2, 2));
  ((246, 2), (1732, 3), (19, 3));
  ((247, 2), (1731, 3), (19, 3));
  ((248, 2), (1731, 3), (19, 3));
  ((249, 2), (173, 2), (18, 3));
  ((25, 1), (1729, 3), (18, 3));
  ((25063, 4), (1729, 3), (19, 3));
  ((25126, 4), (1729, 3), (19, 3));
  ((25189, 4), (1729, 3), (19, 3));
  ((25253, 4), (1728, 3), (19, 3));
  ((25316, 4), (1728, 3), (18, 3));
  ((25381, 4), (1728, 3), (19, 3));
  ((25445, 4), (1728, 3), (19, 3));
  ((2551, 3), (1728, 3), (19, 3));
  ((25575, 4), (1727, 3), (19, 3));
  ((25641, 4), (1727, 3), (19, 3));
  ((25707, 4), (1727, 3), (19, 3));
  ((25773, 4), (1727, 3), (19, 3));
  ((2584, 3), (1727, 3), (2, 2));
  ((25907, 4), (1726, 3), (19, 3));
  ((25974, 4), (1726, 3), (19, 3));
  ((26042, 4), (1726, 3), (19, 3));
  ((2611, 3), (1726, 3), (2, 2));
  ((26178, 4), (1726, 3), (2, 2));
  ((26247, 4), (1726, 3), (2, 2));
  ((26316, 4), (1725, 3), (2, 2));
  ((26385, 4), (1725, 3), (2, 2));
  ((26455, 4), (1725, 3), (2, 2));
  ((26525, 4), (1725, 3), (2, 2));
  ((26596, 4), (1725, 3), (2, 2));
  ((26667, 4), (1724, 3), (2, 2));
  ((26738, 4), (1724, 3), (2, 2));
  ((2681, 3), (1725, 3), (2, 2));
  ((26882, 4), (1725, 3), (2, 2));
  ((26954, 4), (1724, 3), (2, 2));
  ((27027, 4), (1724, 3), (19, 3));
  ((271, 2), (1723, 3), (19, 3));
  ((27174, 4), (1723, 3), (19, 3));
  ((27248, 4), (1722, 3), (2, 2));
  ((27322, 4), (1722, 3), (21, 3));
  ((27397, 4), (1722, 3), (21, 3));
  ((27473, 4), (1723, 3), (21, 3));
  ((27548, 4), (1723, 3), (21, 3));
  ((27624, 4), (1723, 3), (21, 3));
  ((27701, 4), (1723, 3), (21, 3));
  ((27778, 4), (1722, 3), (21, 3));
  ((27855, 4), (1722, 3), (21, 3));
  ((27933, 4), (1722, 3), (2, 2));
  ((28011, 4), (1722, 3), (2, 2));
  ((2809, 3), (1722, 3), (21, 3));
  ((28169, 4), (1722, 3), (21, 3));
  ((28249, 4), (1721, 3), (21, 3));
  ((28329, 4), (1721, 3), (21, 3));
  ((28409, 4), (1721, 3), (2, 2));
  ((2849, 3), (1721, 3), (2, 2));
  ((28571, 4), (172, 2), (21, 3));
  ((28653, 4), (172, 2), (21, 3));
  ((28736, 4), (172, 2), (2, 2));
  ((28818, 4), (172, 2), (2, 2));
  ((28902, 4), (172, 2), (2, 2));
  ((28986, 4), (172, 2), (2, 2));
  ((2907, 3), (1719, 3), (2, 2));
  ((29155, 4), (1719, 3), (2, 2));
  ((2924, 3), (1719, 3), (2, 2));
  ((29326, 4), (1718, 3), (2, 2));
  ((29412, 4), (1718, 3), (2, 2));
  ((29499, 4), (1718, 3), (21, 3));
  ((29586, 4), (1718, 3), (21, 3));
  ((29674, 4), (1717, 3), (21, 3));
  ((29762, 4), (1718, 3), (2, 2));
  ((29851, 4), (1718, 3), (2, 2));
  ((2994, 3), (1717, 3), (2, 2));
  ((3003, 3), (1717, 3), (21, 3));
  ((3012, 3), (1717, 3), (2, 2));
  ((30211, 4), (1717, 3), (2, 2));
  ((30303, 4), (1716, 3), (19, 3));
  ((30395, 4), (1716, 3), (19, 3));
  ((30488, 4), (1715, 3), (2, 2));
  ((30581, 4), (1715, 3), (2, 2));
  ((30675, 4), (1715, 3), (19, 3));
  ((30769, 4), (1714, 3), (19, 3));
  ((30864, 4), (1714, 3), (19, 3));
  ((3096, 3), (1713, 3), (2, 2));
  ((31056, 4), (1713, 3), (19, 3));
  ((31153, 4), (1712, 3), (19, 3));
  ((3125, 3), (1712, 3), (19, 3));
  ((31348, 4), (1712, 3), (2, 2));
  ((31447, 4), (1712, 3), (2, 2));
  ((31546, 4), (1712, 3), (2, 2));
  ((31646, 4), (1711, 3), (19, 3));
  ((31746, 4), (1711, 3), (19, 3));
  ((31847, 4), (171, 2), (19, 3));
  ((31949, 4), (1709, 3), (2, 2));
  ((32051, 4), (1709, 3), (21, 3));
  ((32154, 4), (1709, 3), (2, 2));
  ((32258, 4), (1709, 3), (2, 2));
  ((32362, 4), (1708, 3), (2, 2));
  ((32468, 4), (1708, 3), (2, 2));
  ((32573, 4), (1707, 3), (21, 3));
  ((3268, 3), (1707, 3), (2, 2));
  ((32787, 4), (1707, 3), (2, 2));
  ((32895, 4), (1706, 3), (2, 2));
  ((33003, 4), (1706, 3), (2, 2));
  ((33113, 4), (1706, 3), (21, 3));
  ((33223, 4), (1705, 3), (21, 3));
  ((33333, 4), (1705, 3), (21, 3));
  ((33445, 4), (1705, 3), (2, 2));
  ((33557, 4), (1704, 3), (2, 2));
  ((3367, 3), (1704, 3), (21, 3));
  ((33784, 4), (1703, 3), (21, 3));
  ((33898, 4), (1702, 3), (21, 3));
  ((34014, 4), (1702, 3), (21, 3));
  ((3413, 3), (1702, 3), (21, 3));
  ((34247, 4), (1701, 3), (22, 3));
  ((34364, 4), (1701, 3), (23, 3));
  ((34483, 4), (1701, 3), (23, 3));
  ((34602, 4), (1701, 3), (22, 3));
  ((34722, 4), (1701, 3), (22, 3));
  ((34843, 4), (1701, 3), (22, 3));
  ((34965, 4), (17, 1), (22, 3));
  ((35088, 4), (17, 1), (22, 3));
  ((35211, 4), (17, 1), (22, 3));
  ((35336, 4), (1699, 3), (21, 3));
  ((35461, 4), (1699, 3), (21, 3));
  ((35587, 4), (1699, 3), (21, 3));
  ((35714, 4), (1698, 3), (21, 3));
  ((35842, 4), (1698, 3), (21, 3));
  ((35971, 4), (1697, 3), (2, 2));
  ((36101, 4), (1697, 3), (2, 2));
  ((36232, 4), (1696, 3), (2, 2));
  ((36364, 4), (1695, 3), (2, 2));
  ((36496, 4), (1694, 3), (2, 2));
  ((3663, 3), (1694, 3), (19, 3));
  ((36765, 4), (1693, 3), (19, 3));
  ((369, 2), (1692, 3), (19, 3));
  ((37037, 4), (1692, 3), (2, 2));
  ((37175, 4), (1691, 3), (2, 2));
  ((37313, 4), (169, 2), (2, 2));
  ((37453, 4), (169, 2), (19, 3));
  ((37594, 4), (1689, 3), (19, 3));
  ((37736, 4), (1688, 3), (21, 3));
  ((37879, 4), (1687, 3), (21, 3));
  ((38023, 4), (1687, 3), (2, 2));
  ((38168, 4), (1686, 3), (2, 2));
  ((38314, 4), (1685, 3), (2, 2));
  ((38462, 4), (1684, 3), (21, 3));
  ((3861, 3), (1684, 3), (21, 3));
  ((38911, 4), (1683, 3), (21, 3));
  ((38976, 4), (1683, 3), (21, 3));
  ((39063, 4), (1682, 3), (2, 2));
  ((39216, 4), (1681, 3), (2, 2));
  ((3937, 3), (168, 2), (21, 3));
  ((39526, 4), (1679, 3), (21, 3));
  ((39683, 4), (1678, 3), (21, 3));
  ((39841, 4), (1677, 3), (2, 2));
  ((4, 0), (1676, 3), (21, 3));
  ((40161, 4), (1676, 3), (22, 3));
  ((40323, 4), (1675, 3), (23, 3));
  ((40486, 4), (1674, 3), (23, 3));
  ((4065, 3), (1674, 3), (22, 3));
  ((40816, 4), (1673, 3), (22, 3));
  ((40984, 4), (1672, 3), (23, 3));
  ((41152, 4), (1672, 3), (24, 3));
  ((41322, 4), (1671, 3), (24, 3));
  ((41494, 4), (167, 2), (23, 3));
  ((41667, 4), (167, 2), (23, 3));
  ((41841, 4), (1669, 3), (24, 3));
  ((42017, 4), (1668, 3), (24, 3));
  ((42194, 4), (1667, 3), (24, 3));
  ((42373, 4), (1667, 3), (24, 3));
  ((42553, 4), (1666, 3), (23, 3));
  ((42735, 4), (1665, 3), (23, 3));
  ((42918, 4), (1664, 3), (24, 3));
  ((43103, 4), (1663, 3), (24, 3));
  ((4329, 3), (1662, 3), (23, 3));
  ((43478, 4), (166, 2), (23, 3));
  ((43668, 4), (1659, 3), (23, 3));
  ((4386, 3), (1658, 3), (24, 3));
  ((44053, 4), (1657, 3), (25, 3));
  ((44248, 4), (1656, 3), (25, 3));
  ((44444, 4), (1655, 3), (25, 3));
  ((44643, 4), (1654, 3), (25, 3));
  ((44843, 4), (1653, 3), (26, 3));
  ((45045, 4), (1652, 3), (26, 3));
  ((45249, 4), (1651, 3), (26, 3));
  ((45455, 4), (165, 2), (26, 3));
  ((45662, 4), (1649, 3), (26, 3));
  ((45872, 4), (1647, 3), (27, 3));
  ((46083, 4), (1646, 3), (28, 3));
  ((46296, 4), (1645, 3), (28, 3));
  ((46512, 4), (1644, 3), (28, 3));
  ((46729, 4), (1643, 3), (28, 3));
  ((46948, 4), (1642, 3), (29, 3));
  ((4717, 3), (1642, 3), (29, 3));
  ((47393, 4), (1641, 3), (3, 2));
  ((47619, 4), (1639, 3), (3, 2));
  ((47847, 4), (1638, 3), (29, 3));
  ((48077, 4), (1637, 3), (29, 3));
  ((48309, 4), (1636, 3), (3, 2));
  ((48544, 4), (1634, 3), (31, 3));
  ((4878, 3), (1633, 3), (31, 3));
  ((4902, 3), (1633, 3), (31, 3));
  ((49261, 4), (1632, 3), (31, 3));
  ((49505, 4), (1631, 3), (31, 3));
  ((49751, 4), (1629, 3), (31, 3));
  ((5, 0), (1628, 3), (32, 3));
  ((50251, 4), (1627, 3), (32, 3));
  ((50505, 4), (1626, 3), (31, 3));
  ((50761, 4), (1624, 3), (31, 3));
  ((5102, 3), (1623, 3), (32, 3));
  ((51282, 4), (1621, 3), (32, 3));
  ((51546, 4), (162, 2), (32, 3));
  ((51813, 4), (1619, 3), (31, 3));
  ((52083, 4), (1617, 3), (3, 2));
  ((52356, 4), (1616, 3), (31, 3));
  ((52632, 4), (1614, 3), (31, 3));
  ((5291, 3), (1612, 3), (31, 3));
  ((53191, 4), (161, 2), (3, 2));
  ((53476, 4), (1608, 3), (3, 2));
  ((53763, 4), (1606, 3), (3, 2));
  ((54054, 4), (1604, 3), (31, 3));
  ((54348, 4), (1602, 3), (31, 3));
  ((54645, 4), (16, 1), (31, 3));
  ((54945, 4), (1598, 3), (3, 2));
  ((55249, 4), (1596, 3), (3, 2));
  ((55556, 4), (1593, 3), (31, 3));
  ((55866, 4), (1591, 3), (32, 3));
  ((5618, 3), (1589, 3), (32, 3));
  ((56497, 4), (1587, 3), (31, 3));
  ((56818, 4), (1584, 3), (3, 2));
  ((57143, 4), (1582, 3), (31, 3));
  ((57471, 4), (1579, 3), (31, 3));
  ((57803, 4), (1576, 3), (32, 3));
  ((5814, 3), (1573, 3), (32, 3));
  ((5848, 3), (1571, 3), (32, 3));
  ((58824, 4), (1568, 3), (32, 3));
  ((59172, 4), (1565, 3), (33, 3));
  ((59524, 4), (1562, 3), (34, 3));
  ((5988, 3), (156, 2), (34, 3));
  ((60241, 4), (1557, 3), (34, 3));
  ((60606, 4), (1554, 3), (34, 3));
  ((60976, 4), (1551, 3), (35, 3));
  ((6135, 3), (1548, 3), (36, 3));
  ((61728, 4), (1544, 3), (36, 3));
  ((62112, 4), (1542, 3), (36, 3));
  ((625, 2), (1538, 3), (35, 3));
  ((62893, 4), (1535, 3), (36, 3));
  ((63291, 4), (1532, 3), (37, 3));
  ((63694, 4), (1528, 3), (38, 3));
  ((64103, 4), (1524, 3), (37, 3));
  ((64516, 4), (1521, 3), (37, 3));
  ((64935, 4), (1517, 3), (38, 3));
  ((65359, 4), (1513, 3), (39, 3));
  ((65789, 4), (1509, 3), (39, 3));
  ((66225, 4), (1505, 3), (39, 3));
  ((66667, 4), (1501, 3), (39, 3));
  ((67114, 4), (1497, 3), (39, 3));
  ((67568, 4), (1492, 3), (4, 2));
  ((68027, 4), (1487, 3), (41, 3));
  ((68493, 4), (1482, 3), (41, 3));
  ((68966, 4), (1478, 3), (41, 3));
  ((69444, 4), (1473, 3), (41, 3));
  ((6993, 3), (1467, 3), (42, 3));
  ((70423, 4), (1462, 3), (44, 3));
  ((70922, 4), (1457, 3), (45, 3));
  ((71429, 4), (1452, 3), (45, 3));
  ((71942, 4), (1447, 3), (44, 3));
  ((72464, 4), (1441, 3), (45, 3));
  ((72993, 4), (1435, 3), (46, 3));
  ((73529, 4), (1428, 3), (47, 3));
  ((74074, 4), (1422, 3), (47, 3));
  ((74627, 4), (1416, 3), (47, 3));
  ((75188, 4), (1409, 3), (47, 3));
  ((75758, 4), (1402, 3), (48, 3));
  ((76336, 4), (1395, 3), (48, 3));
  ((76923, 4), (1388, 3), (48, 3));
  ((77519, 4), (138, 2), (47, 3));
  ((78125, 4), (1371, 3), (45, 3));
  ((7874, 3), (1359, 3), (44, 3));
  ((79365, 4), (1345, 3), (55, 3));
  ((8, 0), (1345, 3), (56, 3));
  ((80645, 4), (1336, 3), (51, 3));
  ((81301, 4), (1321, 3), (54, 3));
  ((81967, 4), (1311, 3), (53, 3));
  ((82645, 4), (1301, 3), (57, 3));
  ((83333, 4), (1294, 3), (55, 3));
  ((84034, 4), (1276, 3), (53, 3));
  ((84746, 4), (1265, 3), (54, 3));
  ((8547, 3), (1243, 3), (58, 3));
  ((86207, 4), (1236, 3), (68, 3));
  ((86957, 4), (1228, 3), (67, 3));
  ((87719, 4), (1218, 3), (62, 3));
  ((88496, 4), (1197, 3), (61, 3));
  ((89286, 4), (1173, 3), (63, 3));
  ((9009, 3), (116, 2), (74, 3));
  ((90909, 4), (1149, 3), (8, 2));
  ((91743, 4), (1136, 3), (73, 3));
  ((92593, 4), (1113, 3), (63, 3));
  ((93458, 4), (1079, 3), (64, 3));
  ((9434, 3), (105, 2), (74, 3));
  ((95238, 4), (1032, 3), (89, 3));
  ((96154, 4), (1014, 3), (91, 3));
  ((97087, 4), (99, 2), (88, 3));
  ((98039, 4), (961, 3), (89, 3));
  ((9901, 3), (927, 3), (88, 3));
  ((10, 0), (89, 2), (94, 3));
  ((10101, 3), (854, 3), (97, 3));
  ((102041, 4), (813, 3), (103, 3));
  ((103093, 4), (768, 3), (108, 3));
  ((104167, 4), (717, 3), (112, 3));
  ((105263, 4), (658, 3), (12, 2));
  ((106383, 4), (592, 3), (13, 2));
  ((107527, 4), (514, 3), (139, 3));
  ((108696, 4), (401, 3), (166, 3));
  ((10989, 3), (279, 3), (239, 3));
  ((111111, 4), (182, 3), (355, 3));
  ((11236, 3), (124, 3), (484, 3));
  ((113636, 4), (98, 3), (608, 3));
  ((114943, 4), (87, 3), (719, 3));
  ((116279, 4), (83, 3), (822, 3));
  ((117647, 4), (81, 3), (915, 3));
  ((119048, 4), (79, 3), (1002, 3));
  ((120482, 4), (78, 3), (1088, 3));
  ((121951, 4), (78, 3), (1176, 3));
  ((123457, 4), (79, 3), (1266, 3));
  ((125, 1), (82, 3), (1356, 3));
  ((126582, 4), (83, 3), (1439, 3));
  ((128205, 4), (81, 3), (1524, 3));
  ((12987, 3), (8, 2), (1618, 3));
  ((131579, 4), (79, 3), (1721, 3));
  ((133333, 4), (79, 3), (1833, 3));
  ((135135, 4), (8, 2), (1948, 3));
  ((136986, 4), (91, 3), (2064, 3));
  ((138889, 4), (105, 3), (2178, 3));
  ((140845, 4), (114, 3), (2311, 3));
  ((142857, 4), (114, 3), (2466, 3));
  ((144928, 4), (117, 3), (2645, 3));
  ((147059, 4), (135, 3), (2838, 3));
  ((149254, 4), (172, 3), (3049, 3));
  ((151515, 4), (243, 3), (3326, 3));
  ((153846, 4), (369, 3), (3683, 3));
  ((15625, 3), (664, 3), (425, 2));
  ((15873, 3), (1672, 3), (346, 2));
  ((16129, 3), (735, 3), (3626, 3));
  ((163934, 4), (774, 3), (426, 2));
  ((166667, 4), (1062, 3), (4919, 3));
  ((169492, 4), (1523, 3), (5835, 3));
  ((172414, 4), (2382, 3), (6996, 3));
  ((175439, 4), (5146, 3), (8491, 3));
  ((178571, 4), (8559, 3), (3839, 3));
  ((181818, 4), (6585, 3), (1299, 3));
  ((185185, 4), (5308, 3), (642, 3));
  ((188679, 4), (4497, 3), (42, 2));
  ((192308, 4), (3797, 3), (48, 2));
  ((196078, 4), (3232, 3), (662, 3));
  ((20, 0), (2725, 3), (591, 3));
  ((204082, 4), (1951, 3), (573, 3));
  ((208333, 4), (629, 3), (122, 2));
  ((212766, 4), (283, 3), (2824, 3));
  ((217391, 4), (512, 3), (473, 2));
  ((222222, 4), (1472, 3), (7373, 3));
  ((227273, 4), (725, 2), (11173, 3));
  ((232558, 4), (9484, 3), (1231, 3));
  ((238095, 4), (6881, 3), (312, 3));
  ((243902, 4), (5718, 3), (108, 3));
  ((25, 0), (502, 2), (66, 3));
  ((25641, 3), (3879, 3), (606, 3));
  ((263158, 4), (5677, 3), (1312, 3));
  ((27027, 3), (4903, 3), (108, 3));
  ((277778, 4), (456, 2), (-69, 3));
  ((285714, 4), (4279, 3), (-89, 3));
  ((294118, 4), (4122, 3), (-43, 3));
  ((30303, 3), (4, 0), (1, 2));
  ((3125, 2), (3893, 3), (46, 3));
  ((322581, 4), (3803, 3), (19, 3));
  ((333333, 4), (3723, 3), (13, 3));
  ((344828, 4), (3667, 3), (77, 3));
  ((357143, 4), (3646, 3), (77, 3));
  ((37037, 3), (3617, 3), (67, 3));
  ((384615, 4), (3571, 3), (48, 3));
  ((40, 0), (353, 2), (28, 3));
  ((416667, 4), (3492, 3), (13, 3));
  ((434783, 4), (3458, 3), (21, 3));
  ((454545, 4), (3426, 3), (28, 3));
  ((47619, 3), (3398, 3), (28, 3));
  ((50, 0), (3372, 3), (18, 3));
  ((526316, 4), (3348, 3), (9, 3));
  ((555556, 4), (3326, 3), (11, 3))].

(** nidn/materials/data/gallium_arsenide.csv, lines 2-201 *)
Definition gallium_arsenide : list line :=
 [((20664, 5), (10752, 4), (25927, 4));
  ((20767, 5), (10835, 4), (26151, 4));
  ((2087, 4), (10921, 4), (26382, 4));
  ((20975, 5), (11011, 4), (26619, 4));
  ((21081, 5), (11104, 4), (26865, 4));
  ((21188, 5), (11201, 4), (27118, 4));
  ((21295, 5), (11303, 4), (27379, 4));
  ((21404, 5), (1141, 3), (27649, 4));
  ((21515, 5), (11522, 4), (27928, 4));
  ((21626, 5), (1164, 3), (28217, 4));
  ((21738, 5), (11765, 4), (28517, 4));
  ((21852, 5), (11896, 4), (28827, 4));
  ((21967, 5), (12036, 4), (29149, 4));
  ((22083, 5), (12184, 4), (29484, 4));
  ((222, 3), (12342, 4), (29832, 4));
  ((22318, 5), (12511, 4), (30194, 4));
  ((22438, 5), (12692, 4), (3057, 3));
  ((22559, 5), (12887, 4), (30963, 4));
  ((22681, 5), (13097, 4), (31373, 4));
  ((22805, 5), (13325, 4), (31801, 4));
  ((2293, 4), (13572, 4), (32248, 4));
  ((23057, 5), (13841, 4), (32715, 4));
  ((23184, 5), (14136, 4), (33204, 4));
  ((23314, 5), (1446, 3), (33716, 4));
  ((23444, 5), (14817, 4), (34253, 4));
  ((23577, 5), (15214, 4), (34816, 4));
  ((2371, 4), (15656, 4), (35405, 4));
  ((23845, 5), (16152, 4), (36023, 4));
  ((23982, 5), (16711, 4), (3667, 3));
  ((2412, 4), (17347, 4), (37346, 4));
  ((2426, 4), (18077, 4), (38049, 4));
  ((24402, 5), (18923, 4), (38773, 4));
  ((24545, 5), (19915, 4), (39508, 4));
  ((2469, 4), (21089, 4), (40226, 4));
  ((24837, 5), (22487, 4), (40877, 4));
  ((24985, 5), (24139, 4), (41368, 4));
  ((25135, 5), (26026, 4), (41559, 4));
  ((25287, 5), (28014, 4), (41304, 4));
  ((25441, 5), (29856, 4), (40569, 4));
  ((25597, 5), (31332, 4), (39517, 4));
  ((25755, 5), (32409, 4), (38408, 4));
  ((25914, 5), (33219, 4), (37405, 4));
  ((26076, 5), (33908, 4), (3653, 3));
  ((26239, 5), (34558, 4), (35739, 4));
  ((26405, 5), (35194, 4), (34981, 4));
  ((26573, 5), (35818, 4), (34226, 4));
  ((26743, 5), (36421, 4), (33457, 4));
  ((26915, 5), (36999, 4), (32664, 4));
  ((27089, 5), (37546, 4), (31839, 4));
  ((27266, 5), (38054, 4), (30973, 4));
  ((27445, 5), (38508, 4), (3006, 3));
  ((27626, 5), (38889, 4), (29098, 4));
  ((2781, 4), (39173, 4), (28098, 4));
  ((27996, 5), (39343, 4), (27081, 4));
  ((28185, 5), (39393, 4), (26075, 4));
  ((28376, 5), (39324, 4), (2511, 3));
  ((2857, 4), (39153, 4), (24209, 4));
  ((28766, 5), (38898, 4), (23391, 4));
  ((28966, 5), (38583, 4), (22665, 4));
  ((29168, 5), (38227, 4), (22031, 4));
  ((29372, 5), (37851, 4), (21489, 4));
  ((2958, 4), (37467, 4), (21031, 4));
  ((29791, 5), (37088, 4), (2065, 3));
  ((30005, 5), (36723, 4), (20337, 4));
  ((30222, 5), (36377, 4), (20085, 4));
  ((30442, 5), (36054, 4), (19886, 4));
  ((30665, 5), (35757, 4), (19733, 4));
  ((30891, 5), (35487, 4), (19619, 4));
  ((31121, 5), (35245, 4), (19539, 4));
  ((31354, 5), (35031, 4), (19489, 4));
  ((31591, 5), (34845, 4), (19464, 4));
  ((31832, 5), (34686, 4), (19461, 4));
  ((32076, 5), (34553, 4), (19477, 4));
  ((32324, 5), (34446, 4), (1951, 3));
  ((32576, 5), (34365, 4), (19556, 4));
  ((32831, 5), (34307, 4), (19616, 4));
  ((33091, 5), (34272, 4), (19686, 4));
  ((33355, 5), (3426, 3), (19767, 4));
  ((33623, 5), (3427, 3), (19858, 4));
  ((33896, 5), (34302, 4), (19958, 4));
  ((34173, 5), (34354, 4), (20067, 4));
  ((34454, 5), (34427, 4), (20187, 4));
  ((34741, 5), (34521, 4), (20317, 4));
  ((35032, 5), (34636, 4), (20459, 4));
  ((35328, 5), (34775, 4), (20616, 4));
  ((35629, 5), (34938, 4), (2079, 3));
  ((35935, 5), (3513, 3), (20985, 4));
  ((36246, 5), (35358, 4), (21206, 4));
  ((36563, 5), (35632, 4), (21457, 4));
  ((36886, 5), (35967, 4), (2174, 3));
  ((37214, 5), (36387, 4), (22056, 4));
  ((37548, 5), (36926, 4), (22391, 4));
  ((37888, 5), (37618, 4), (2271, 3));
  ((38235, 5), (38487, 4), (22944, 4));
  ((38588, 5), (39508, 4), (22995, 4));
  ((38947, 5), (40575, 4), (22786, 4));
  ((39313, 5), (41533, 4), (22339, 4));
  ((39686, 5), (42284, 4), (21791, 4));
  ((40066, 5), (42865, 4), (2131, 3));
  ((40454, 5), (43416, 4), (20989, 4));
  ((40849, 5), (4411, 3), (20805, 4));
  ((41252, 5), (45082, 4), (20625, 4));
  ((41663, 5), (46366, 4), (20226, 4));
  ((42082, 5), (4783, 3), (19374, 4));
  ((4251, 4), (49184, 4), (17965, 4));
  ((42947, 5), (50126, 4), (16118, 4));
  ((43392, 5), (50515, 4), (14109, 4));
  ((43847, 5), (50406, 4), (12197, 4));
  ((44312, 5), (49948, 4), (10524, 4));
  ((44786, 5), (49289, 4), (91267, 5));
  ((45271, 5), (48537, 4), (7986, 4));
  ((45767, 5), (47761, 4), (70605, 5));
  ((46273, 5), (46998, 4), (63081, 5));
  ((46791, 5), (46268, 4), (56924, 5));
  ((4732, 4), (45579, 4), (51842, 5));
  ((47862, 5), (44934, 4), (47607, 5));
  ((48416, 5), (44332, 4), (44046, 5));
  ((48983, 5), (43772, 4), (41023, 5));
  ((49564, 5), (4325, 3), (38435, 5));
  ((50158, 5), (42764, 4), (36203, 5));
  ((50767, 5), (4231, 3), (34264, 5));
  ((51391, 5), (41887, 4), (32567, 5));
  ((5203, 4), (41491, 4), (31073, 5));
  ((52686, 5), (41121, 4), (2975, 4));
  ((53358, 5), (40775, 4), (28572, 5));
  ((54048, 5), (4045, 3), (27517, 5));
  ((54756, 5), (40145, 4), (26567, 5));
  ((55482, 5), (39859, 4), (25707, 5));
  ((56228, 5), (3959, 3), (24924, 5));
  ((56994, 5), (39338, 4), (24206, 5));
  ((57782, 5), (39101, 4), (23543, 5));
  ((58591, 5), (38879, 4), (22926, 5));
  ((59424, 5), (38671, 4), (22348, 5));
  ((60281, 5), (38476, 4), (21799, 5));
  ((61162, 5), (38294, 4), (21272, 5));
  ((6207, 4), (38123, 4), (2076, 4));
  ((63005, 5), (37965, 4), (20254, 5));
  ((63969, 5), (37818, 4), (19745, 5));
  ((64963, 5), (37681, 4), (19224, 5));
  ((65988, 5), (37556, 4), (18676, 5));
  ((67046, 5), (3744, 3), (18085, 5));
  ((68138, 5), (37336, 4), (17423, 5));
  ((69267, 5), (37241, 4), (16637, 5));
  ((70433, 5), (37155, 4), (15566, 5));
  ((7164, 4), (36968, 4), (14206, 5));
  ((72889, 5), (3682, 3), (13842, 5));
  ((74182, 5), (36703, 4), (1344, 4));
  ((75521, 5), (36602, 4), (12994, 5));
  ((7691, 4), (36515, 4), (1249, 4));
  ((78351, 5), (3644, 3), (11913, 5));
  ((79847, 5), (36376, 4), (11237, 5));
  ((81402, 5), (36322, 4), (10425, 5));
  ((83018, 5), (36279, 4), (94172, 6));
  ((84699, 5), (36238, 4), (80533, 6));
  ((8645, 4), (3607, 3), (59067, 6));
  ((88275, 5), (35815, 4), (44254, 6));
  ((90179, 5), (35664, 4), (22701, 6));
  ((92166, 5), (35453, 4), (16655, 6));
  ((94243, 5), (35276, 4), (15411, 6));
  ((96416, 5), (35119, 4), (14358, 6));
  ((98691, 5), (34977, 4), (13366, 6));
  ((10108, 4), (34845, 4), (12431, 6));
  ((10358, 4), (34722, 4), (11553, 6));
  ((10621, 4), (34606, 4), (10728, 6));
  ((10898, 4), (34497, 4), (99539, 7));
  ((1119, 3), (34393, 4), (92282, 7));
  ((11497, 4), (34294, 4), (85484, 7));
  ((11822, 4), (34199, 4), (79119, 7));
  ((12166, 4), (34109, 4), (73164, 7));
  ((12531, 4), (34022, 4), (67596, 7));
  ((12918, 4), (33939, 4), (62393, 7));
  ((13329, 4), (3386, 3), (57535, 7));
  ((13768, 4), (33784, 4), (53002, 7));
  ((14237, 4), (33711, 4), (48775, 7));
  ((14739, 4), (33641, 4), (44836, 7));
  ((15277, 4), (33574, 4), (41169, 7));
  ((15857, 4), (33509, 4), (37755, 7));
  ((16482, 4), (33448, 4), (34582, 7));
  ((17158, 4), (33388, 4), (31633, 7));
  ((17892, 4), (33332, 4), (28894, 7));
  ((18692, 4), (33277, 4), (26354, 7));
  ((19566, 4), (33225, 4), (23999, 7));
  ((20527, 4), (33175, 4), (21818, 7));
  ((21586, 4), (33128, 4), (19799, 7));
  ((22761, 4), (33082, 4), (17932, 7));
  ((24071, 4), (33039, 4), (16206, 7));
  ((25541, 4), (32998, 4), (14614, 7));
  ((27203, 4), (32959, 4), (13145, 7));
  ((29095, 4), (32922, 4), (11792, 7));
  ((31271, 4), (32886, 4), (10546, 7));
  ((33798, 4), (32853, 4), (94004, 8));
  ((3677, 3), (32821, 4), (83479, 8));
  ((40315, 4), (32792, 4), (7382, 7));
  ((44616, 4), (32764, 4), (64966, 8));
  ((49945, 4), (32738, 4), (5686, 7));
  ((56719, 4), (32714, 4), (49446, 8));
  ((65619, 4), (32692, 4), (42674, 8));
  ((77832, 4), (32671, 4), (36498, 8));
  ((95631, 4), (32652, 4), (30871, 8));
  ((12398, 3), (32635, 4), (25753, 8))].

(** nidn/materials/data/germanium.csv, lines 2-629 *)
Definition germanium : list line :=
 [((4, 1), (3, 0), (25194, 4));
  ((40939, 5), (3, 0), (248531, 5));
  ((41879, 5), (3, 0), (245739, 5));
  ((42818, 5), (3, 0), (244187, 5));
  ((43757, 5), (3, 0), (244144, 5));
  ((44696, 5), (3, 0), (245499, 5));
  ((45636, 5), (3, 0), (247903, 5));
  ((46575, 5), (3, 0), (25099, 4));
  ((47514, 5), (3, 0), (25454, 4));
  ((48454, 5), (3, 0), (258601, 5));
  ((49393, 5), (3, 0), (263387, 5));
  ((50332, 5), (300001, 5), (268749, 5));
  ((51271, 5), (300025, 5), (274385, 5));
  ((52211, 5), (300107, 5), (279707, 5));
  ((5315, 4), (300274, 5), (283995, 5));
  ((54089, 5), (300549, 5), (286821, 5));
  ((55029, 5), (300959, 5), (288399, 5));
  ((55968, 5), (301525, 5), (289581, 5));
  ((56907, 5), (302275, 5), (291049, 5));
  ((57846, 5), (303252, 5), (292638, 5));
  ((58786, 5), (304519, 5), (293263, 5));
  ((59725, 5), (306138, 5), (291762, 5));
  ((60664, 5), (30815, 4), (28787, 4));
  ((61604, 5), (310606, 5), (282171, 5));
  ((62543, 5), (313527, 5), (275666, 5));
  ((63482, 5), (316943, 5), (26905, 4));
  ((64421, 5), (320855, 5), (262702, 5));
  ((65361, 5), (325229, 5), (25671, 4));
  ((663, 3), (329996, 5), (250996, 5));
  ((67239, 5), (335093, 5), (245428, 5));
  ((68178, 5), (340442, 5), (239882, 5));
  ((69118, 5), (345974, 5), (234282, 5));
  ((70057, 5), (351638, 5), (228593, 5));
  ((70996, 5), (357389, 5), (222785, 5));
  ((71936, 5), (363181, 5), (216824, 5));
  ((72875, 5), (368977, 5), (210704, 5));
  ((73814, 5), (37474, 4), (204421, 5));
  ((74753, 5), (380425, 5), (197962, 5));
  ((75693, 5), (385982, 5), (191309, 5));
  ((76632, 5), (391386, 5), (184481, 5));
  ((77571, 5), (39662, 4), (177499, 5));
  ((78511, 5), (401639, 5), (170373, 5));
  ((7945, 4), (406442, 5), (163147, 5));
  ((80389, 5), (411007, 5), (155845, 5));
  ((81328, 5), (4153, 3), (14849, 4));
  ((82268, 5), (419324, 5), (141102, 5));
  ((83207, 5), (423044, 5), (133702, 5));
  ((84146, 5), (426445, 5), (126301, 5));
  ((85086, 5), (42945, 4), (118875, 5));
  ((86025, 5), (43185, 4), (111347, 5));
  ((86964, 5), (433525, 5), (103617, 5));
  ((87903, 5), (434281, 5), (95579, 5));
  ((88843, 5), (434187, 5), (87262, 5));
  ((89782, 5), (434027, 5), (79025, 5));
  ((90721, 5), (434332, 5), (71148, 5));
  ((9166, 4), (435094, 5), (6369, 4));
  ((926, 3), (436077, 5), (56667, 5));
  ((93539, 5), (436995, 5), (49987, 5));
  ((94478, 5), (43771, 4), (4364, 4));
  ((95418, 5), (438163, 5), (37639, 5));
  ((96357, 5), (438358, 5), (32011, 5));
  ((97296, 5), (438317, 5), (26782, 5));
  ((98235, 5), (4381, 3), (21981, 5));
  ((99175, 5), (43779, 4), (17636, 5));
  ((100114, 5), (437427, 5), (13775, 5));
  ((101053, 5), (437023, 5), (10424, 5));
  ((101993, 5), (436606, 5), (7611, 5));
  ((102932, 5), (43618, 4), (5357, 5));
  ((103871, 5), (435727, 5), (367, 4));
  ((10481, 4), (43525, 4), (2536, 5));
  ((10575, 4), (434765, 5), (186, 4));
  ((106689, 5), (434279, 5), (152, 4));
  ((107628, 5), (433809, 5), (131, 4));
  ((108568, 5), (433378, 5), (107, 4));
  ((109507, 5), (433004, 5), (834, 5));
  ((110446, 5), (432688, 5), (622, 5));
  ((111385, 5), (432388, 5), (429, 5));
  ((112325, 5), (43206, 4), (254, 5));
  ((113264, 5), (431665, 5), (94, 5));
  ((114203, 5), (431222, 5), (34, 5));
  ((115143, 5), (430767, 5), (16, 5));
  ((116082, 5), (430313, 5), (14, 5));
  ((117021, 5), (429867, 5), (11, 5));
  ((11796, 4), (429413, 5), (16, 5));
  ((1189, 3), (428971, 5), (55, 5));
  ((119839, 5), (428538, 5), (119, 5));
  ((120778, 5), (42812, 4), (194, 5));
  ((121717, 5), (427686, 5), (25, 4));
  ((122657, 5), (427259, 5), (299, 5));
  ((123596, 5), (426879, 5), (349, 5));
  ((124535, 5), (426574, 5), (397, 5));
  ((125475, 5), (426307, 5), (439, 5));
  ((126414, 5), (426063, 5), (44, 4));
  ((127353, 5), (425814, 5), (415, 5));
  ((128292, 5), (425561, 5), (368, 5));
  ((129232, 5), (42527, 4), (298, 5));
  ((130171, 5), (424977, 5), (225, 5));
  ((13111, 4), (424698, 5), (146, 5));
  ((13205, 4), (424445, 5), (77, 5));
  ((132989, 5), (424219, 5), (16, 5));
  ((133928, 5), (424014, 5), (48, 5));
  ((134867, 5), (423817, 5), (115, 5));
  ((135807, 5), (423546, 5), (165, 5));
  ((136746, 5), (423267, 5), (211, 5));
  ((137685, 5), (422964, 5), (218, 5));
  ((138625, 5), (422672, 5), (211, 5));
  ((139564, 5), (422435, 5), (127, 5));
  ((140503, 5), (422225, 5), (55, 5));
  ((141442, 5), (422122, 5), (34, 5));
  ((142382, 5), (422029, 5), (17, 5));
  ((143321, 5), (42198, 4), (18, 5));
  ((14426, 4), (421932, 5), (19, 5));
  ((1452, 3), (421886, 5), (17, 5));
  ((146139, 5), (421841, 5), (15, 5));
  ((147078, 5), (421824, 5), (17, 5));
  ((148017, 5), (421808, 5), (19, 5));
  ((148957, 5), (421761, 5), (86, 5));
  ((149896, 5), (421708, 5), (167, 5));
  ((150835, 5), (421678, 5), (19, 4));
  ((151774, 5), (421663, 5), (172, 5));
  ((152714, 5), (421661, 5), (143, 5));
  ((153653, 5), (421695, 5), (85, 5));
  ((154592, 5), (421729, 5), (27, 5));
  ((155532, 5), (421488, 5), (27, 5));
  ((156471, 5), (421218, 5), (33, 5));
  ((15741, 4), (420747, 5), (51, 5));
  ((158349, 5), (420038, 5), (83, 5));
  ((159289, 5), (419328, 5), (114, 5));
  ((160228, 5), (418694, 5), (196, 5));
  ((161167, 5), (418065, 5), (281, 5));
  ((162107, 5), (417514, 5), (384, 5));
  ((163046, 5), (417116, 5), (521, 5));
  ((163985, 5), (416717, 5), (658, 5));
  ((164924, 5), (416397, 5), (773, 5));
  ((165864, 5), (416115, 5), (878, 5));
  ((166803, 5), (415833, 5), (983, 5));
  ((167742, 5), (415592, 5), (988, 5));
  ((168682, 5), (415356, 5), (983, 5));
  ((169621, 5), (415122, 5), (96, 4));
  ((17056, 4), (414921, 5), (632, 5));
  ((171499, 5), (41472, 4), (305, 5));
  ((172439, 5), (414517, 5), (16, 5));
  ((173378, 5), (4143, 3), (19, 5));
  ((174317, 5), (414083, 5), (22, 5));
  ((175256, 5), (413868, 5), (24, 5));
  ((176196, 5), (413684, 5), (2, 4));
  ((177135, 5), (4135, 3), (16, 5));
  ((178074, 5), (413317, 5), (12, 5));
  ((179014, 5), (413221, 5), (1, 4));
  ((179953, 5), (413132, 5), (9, 5));
  ((180892, 5), (413043, 5), (7, 5));
  ((181831, 5), (412729, 5), (6, 5));
  ((182771, 5), (412313, 5), (5, 5));
  ((18371, 4), (411896, 5), (4, 5));
  ((184649, 5), (411333, 5), (4, 5));
  ((185589, 5), (410459, 5), (3, 5));
  ((186528, 5), (409586, 5), (3, 5));
  ((187467, 5), (408712, 5), (2, 5));
  ((188406, 5), (408027, 5), (2, 5));
  ((189346, 5), (407378, 5), (1, 5));
  ((190285, 5), (40673, 4), (1, 5));
  ((191224, 5), (406144, 5), (1, 5));
  ((192164, 5), (405768, 5), (1, 5));
  ((193103, 5), (405391, 5), (1, 5));
  ((194042, 5), (405015, 5), (0, 0));
  ((194981, 5), (404669, 5), (0, 0));
  ((195921, 5), (404353, 5), (0, 0));
  ((19686, 4), (404037, 5), (0, 0));
  ((197799, 5), (403722, 5), (0, 0));
  ((198739, 5), (403876, 5), (0, 0));
  ((199678, 5), (404333, 5), (0, 0));
  ((200617, 5), (40479, 4), (0, 0));
  ((201556, 5), (405247, 5), (0, 0));
  ((202496, 5), (405287, 5), (0, 0));
  ((203435, 5), (405025, 5), (0, 0));
  ((204374, 5), (404763, 5), (0, 0));
  ((205313, 5), (404502, 5), (0, 0));
  ((206253, 5), (404299, 5), (0, 0));
  ((207192, 5), (404188, 5), (0, 0));
  ((208131, 5), (404077, 5), (0, 0));
  ((209071, 5), (403967, 5), (0, 0));
  ((21, 1), (40507, 4), (0, 0));
  ((21001, 4), (403857, 5), (0, 0));
  ((212, 2), (404891, 5), (0, 0));
  ((214, 2), (404717, 5), (0, 0));
  ((216, 2), (404548, 5), (0, 0));
  ((218, 2), (404383, 5), (0, 0));
  ((22, 1), (404224, 5), (0, 0));
  ((222, 2), (404068, 5), (0, 0));
  ((224, 2), (403916, 5), (0, 0));
  ((226, 2), (403769, 5), (0, 0));
  ((228, 2), (403625, 5), (0, 0));
  ((23, 1), (403485, 5), (0, 0));
  ((232, 2), (403349, 5), (0, 0));
  ((234, 2), (403216, 5), (0, 0));
  ((236, 2), (403087, 5), (0, 0));
  ((238, 2), (402961, 5), (0, 0));
  ((24, 1), (402838, 5), (0, 0));
  ((242, 2), (402718, 5), (0, 0));
  ((244, 2), (402601, 5), (0, 0));
  ((246, 2), (402486, 5), (0, 0));
  ((248, 2), (402375, 5), (0, 0));
  ((25, 1), (402266, 5), (0, 0));
  ((252, 2), (40216, 4), (0, 0));
  ((254, 2), (402056, 5), (0, 0));
  ((256, 2), (401955, 5), (0, 0));
  ((258, 2), (401856, 5), (0, 0));
  ((26, 1), (401759, 5), (0, 0));
  ((262, 2), (401665, 5), (0, 0));
  ((264, 2), (401572, 5), (0, 0));
  ((266, 2), (401482, 5), (0, 0));
  ((268, 2), (401394, 5), (0, 0));
  ((27, 1), (401307, 5), (0, 0));
  ((272, 2), (401223, 5), (0, 0));
  ((274, 2), (40114, 4), (0, 0));
  ((276, 2), (40106, 4), (0, 0));
  ((278, 2), (400981, 5), (0, 0));
  ((28, 1), (400903, 5), (0, 0));
  ((282, 2), (400828, 5), (0, 0));
  ((284, 2), (400753, 5), (0, 0));
  ((286, 2), (400681, 5), (0, 0));
  ((288, 2), (40061, 4), (0, 0));
  ((29, 1), (40054, 4), (0, 0));
  ((292, 2), (400472, 5), (0, 0));
  ((294, 2), (400405, 5), (0, 0));
  ((296, 2), (40034, 4), (0, 0));
  ((298, 2), (400276, 5), (0, 0));
  ((3, 0), (400213, 5), (0, 0));
  ((302, 2), (400151, 5), (0, 0));
  ((304, 2), (400091, 5), (0, 0));
  ((306, 2), (400032, 5), (0, 0));
  ((308, 2), (399974, 5), (0, 0));
  ((31, 1), (399917, 5), (0, 0));
  ((312, 2), (399861, 5), (0, 0));
  ((314, 2), (399806, 5), (0, 0));
  ((316, 2), (399752, 5), (0, 0));
  ((318, 2), (3997, 3), (0, 0));
  ((32, 1), (399648, 5), (0, 0));
  ((322, 2), (399597, 5), (0, 0));
  ((324, 2), (399547, 5), (0, 0));
  ((326, 2), (399498, 5), (0, 0));
  ((328, 2), (39945, 4), (0, 0));
  ((33, 1), (399403, 5), (0, 0));
  ((332, 2), (399357, 5), (0, 0));
  ((334, 2), (399311, 5), (0, 0));
  ((336, 2), (399267, 5), (0, 0));
  ((338, 2), (399223, 5), (0, 0));
  ((34, 1), (39918, 4), (0, 0));
  ((342, 2), (399137, 5), (0, 0));
  ((344, 2), (399096, 5), (0, 0));
  ((346, 2), (399055, 5), (0, 0));
  ((348, 2), (399014, 5), (0, 0));
  ((35, 1), (398975, 5), (0, 0));
  ((352, 2), (398936, 5), (0, 0));
  ((354, 2), (398898, 5), (0, 0));
  ((356, 2), (39886, 4), (0, 0));
  ((358, 2), (398823, 5), (0, 0));
  ((36, 1), (398787, 5), (0, 0));
  ((362, 2), (398751, 5), (0, 0));
  ((364, 2), (398716, 5), (0, 0));
  ((366, 2), (398682, 5), (0, 0));
  ((368, 2), (398648, 5), (0, 0));
  ((37, 1), (398614, 5), (0, 0));
  ((372, 2), (398581, 5), (0, 0));
  ((374, 2), (398549, 5), (0, 0));
  ((376, 2), (398517, 5), (0, 0));
  ((378, 2), (398486, 5), (0, 0));
  ((38, 1), (398455, 5), (0, 0));
  ((382, 2), (398425, 5), (0, 0));
  ((384, 2), (398395, 5), (0, 0));
  ((386, 2), (398365, 5), (0, 0));
  ((388, 2), (398336, 5), (0, 0));
  ((39, 1), (398308, 5), (0, 0));
  ((392, 2), (39828, 4), (0, 0));
  ((394, 2), (398252, 5), (0, 0));
  ((396, 2), (398225, 5), (0, 0));
  ((398, 2), (398198, 5), (0, 0));
  ((4, 0), (398171, 5), (0, 0));
  ((402, 2), (398145, 5), (0, 0));
  ((404, 2), (39812, 4), (0, 0));
  ((406, 2), (398094, 5), (0, 0));
  ((408, 2), (39807, 4), (0, 0));
  ((41, 1), (398045, 5), (0, 0));
  ((412, 2), (398021, 5), (0, 0));
  ((414, 2), (397997, 5), (0, 0));
  ((416, 2), (397973, 5), (0, 0));
  ((418, 2), (39795, 4), (0, 0));
  ((42, 1), (397927, 5), (0, 0));
  ((422, 2), (397905, 5), (0, 0));
  ((424, 2), (397883, 5), (0, 0));
  ((426, 2), (397861, 5), (0, 0));
  ((428, 2), (397839, 5), (0, 0));
  ((43, 1), (397818, 5), (0, 0));
  ((432, 2), (397797, 5), (0, 0));
  ((434, 2), (397776, 5), (0, 0));
  ((436, 2), (397756, 5), (0, 0));
  ((438, 2), (397736, 5), (0, 0));
  ((44, 1), (397716, 5), (0, 0));
  ((442, 2), (397696, 5), (0, 0));
  ((444, 2), (397677, 5), (0, 0));
  ((446, 2), (397658, 5), (0, 0));
  ((448, 2), (397639, 5), (0, 0));
  ((45, 1), (397621, 5), (0, 0));
  ((452, 2), (397602, 5), (0, 0));
  ((454, 2), (397584, 5), (0, 0));
  ((456, 2), (397566, 5), (0, 0));
  ((458, 2), (397549, 5), (0, 0));
  ((46, 1), (397531, 5), (0, 0));
  ((462, 2), (397514, 5), (0, 0));
  ((464, 2), (397497, 5), (0, 0));
  ((466, 2), (397481, 5), (0, 0));
  ((468, 2), (397464, 5), (0, 0));
  ((47, 1), (397448, 5), (0, 0));
  ((472, 2), (397432, 5), (0, 0));
  ((474, 2), (397416, 5), (0, 0));
  ((476, 2), (3974, 3), (0, 0));
  ((478, 2), (397385, 5), (0, 0));
  ((48, 1), (397369, 5), (0, 0));
  ((482, 2), (397354, 5), (0, 0));
  ((484, 2), (397339, 5), (0, 0));
  ((486, 2), (397325, 5), (0, 0));
  ((488, 2), (39731, 4), (0, 0));
  ((49, 1), (397296, 5), (0, 0));
  ((492, 2), (397282, 5), (0, 0));
  ((494, 2), (397268, 5), (0, 0));
  ((496, 2), (397254, 5), (0, 0));
  ((498, 2), (39724, 4), (0, 0));
  ((5, 0), (397227, 5), (0, 0));
  ((502, 2), (397213, 5), (0, 0));
  ((504, 2), (3972, 3), (0, 0));
  ((506, 2), (397187, 5), (0, 0));
  ((508, 2), (397174, 5), (0, 0));
  ((51, 1), (397161, 5), (0, 0));
  ((512, 2), (397149, 5), (0, 0));
  ((514, 2), (397136, 5), (0, 0));
  ((516, 2), (397124, 5), (0, 0));
  ((518, 2), (397112, 5), (0, 0));
  ((52, 1), (3971, 3), (0, 0));
  ((522, 2), (397088, 5), (0, 0));
  ((524, 2), (397076, 5), (0, 0));
  ((526, 2), (397065, 5), (0, 0));
  ((528, 2), (397053, 5), (0, 0));
  ((53, 1), (397042, 5), (0, 0));
  ((532, 2), (397031, 5), (0, 0));
  ((534, 2), (397019, 5), (0, 0));
  ((536, 2), (397008, 5), (0, 0));
  ((538, 2), (396998, 5), (0, 0));
  ((54, 1), (396987, 5), (0, 0));
  ((542, 2), (396976, 5), (0, 0));
  ((544, 2), (396966, 5), (0, 0));
  ((546, 2), (396955, 5), (0, 0));
  ((548, 2), (396945, 5), (0, 0));
  ((55, 1), (396935, 5), (0, 0));
  ((552, 2), (396925, 5), (0, 0));
  ((554, 2), (396915, 5), (0, 0));
  ((556, 2), (396905, 5), (0, 0));
  ((558, 2), (396895, 5), (0, 0));
  ((56, 1), (396886, 5), (0, 0));
  ((562, 2), (396876, 5), (0, 0));
  ((564, 2), (396867, 5), (0, 0));
  ((566, 2), (396858, 5), (0, 0));
  ((568, 2), (396848, 5), (0, 0));
  ((57, 1), (396839, 5), (0, 0));
  ((572, 2), (39683, 4), (0, 0));
  ((574, 2), (396821, 5), (0, 0));
  ((576, 2), (396812, 5), (0, 0));
  ((578, 2), (396804, 5), (0, 0));
  ((58, 1), (396795, 5), (0, 0));
  ((582, 2), (396787, 5), (0, 0));
  ((584, 2), (396778, 5), (0, 0));
  ((586, 2), (39677, 4), (0, 0));
  ((588, 2), (396761, 5), (0, 0));
  ((59, 1), (396753, 5), (0, 0));
  ((592, 2), (396745, 5), (0, 0));
  ((594, 2), (396737, 5), (0, 0));
  ((596, 2), (396729, 5), (0, 0));
  ((598, 2), (396721, 5), (0, 0));
  ((6, 0), (396713, 5), (0, 0));
  ((602, 2), (396705, 5), (0, 0));
  ((604, 2), (396698, 5), (0, 0));
  ((606, 2), (39669, 4), (0, 0));
  ((608, 2), (396683, 5), (0, 0));
  ((61, 1), (396675, 5), (0, 0));
  ((612, 2), (396668, 5), (0, 0));
  ((614, 2), (396661, 5), (0, 0));
  ((616, 2), (396653, 5), (0, 0));
  ((618, 2), (396646, 5), (0, 0));
  ((62, 1), (396639, 5), (0, 0));
  ((622, 2), (396632, 5), (0, 0));
  ((624, 2), (396625, 5), (0, 0));
  ((626, 2), (396618, 5), (0, 0));
  ((628, 2), (396612, 5), (0, 0));
  ((63, 1), (396605, 5), (0, 0));
  ((632, 2), (396598, 5), (0, 0));
  ((634, 2), (396591, 5), (0, 0));
  ((636, 2), (396585, 5), (0, 0));
  ((638, 2), (396578, 5), (0, 0));
  ((64, 1), (396572, 5), (0, 0));
  ((642, 2), (396566, 5), (0, 0));
  ((644, 2), (396559, 5), (0, 0));
  ((646, 2), (396553, 5), (0, 0));
  ((648, 2), (396547, 5), (0, 0));
  ((65, 1), (396541, 5), (0, 0));
  ((652, 2), (396535, 5), (0, 0));
  ((654, 2), (396529, 5), (0, 0));
  ((656, 2), (396523, 5), (0, 0));
  ((658, 2), (396517, 5), (0, 0));
  ((66, 1), (396511, 5), (0, 0));
  ((662, 2), (396505, 5), (0, 0));
  ((664, 2), (396499, 5), (0, 0));
  ((666, 2), (396493, 5), (0, 0));
  ((668, 2), (396488, 5), (0, 0));
  ((67, 1), (396482, 5), (0, 0));
  ((672, 2), (396477, 5), (0, 0));
  ((674, 2), (396471, 5), (0, 0));
  ((676, 2), (396466, 5), (0, 0));
  ((678, 2), (39646, 4), (0, 0));
  ((68, 1), (396455, 5), (0, 0));
  ((682, 2), (39645, 4), (0, 0));
  ((684, 2), (396444, 5), (0, 0));
  ((686, 2), (396439, 5), (0, 0));
  ((688, 2), (396434, 5), (0, 0));
  ((69, 1), (396429, 5), (0, 0));
  ((692, 2), (396424, 5), (0, 0));
  ((694, 2), (396419, 5), (0, 0));
  ((696, 2), (396414, 5), (0, 0));
  ((698, 2), (396409, 5), (0, 0));
  ((7, 0), (396404, 5), (0, 0));
  ((702, 2), (396399, 5), (0, 0));
  ((704, 2), (396394, 5), (0, 0));
  ((706, 2), (396389, 5), (0, 0));
  ((708, 2), (396384, 5), (0, 0));
  ((71, 1), (39638, 4), (0, 0));
  ((712, 2), (396375, 5), (0, 0));
  ((714, 2), (39637, 4), (0, 0));
  ((716, 2), (396366, 5), (0, 0));
  ((718, 2), (396361, 5), (0, 0));
  ((72, 1), (396357, 5), (0, 0));
  ((722, 2), (396352, 5), (0, 0));
  ((724, 2), (396348, 5), (0, 0));
  ((726, 2), (396343, 5), (0, 0));
  ((728, 2), (396339, 5), (0, 0));
  ((73, 1), (396335, 5), (0, 0));
  ((732, 2), (39633, 4), (0, 0));
  ((734, 2), (396326, 5), (0, 0));
  ((736, 2), (396322, 5), (0, 0));
  ((738, 2), (396318, 5), (0, 0));
  ((74, 1), (396314, 5), (0, 0));
  ((742, 2), (396309, 5), (0, 0));
  ((744, 2), (396305, 5), (0, 0));
  ((746, 2), (396301, 5), (0, 0));
  ((748, 2), (396297, 5), (0, 0));
  ((75, 1), (396293, 5), (0, 0));
  ((752, 2), (396289, 5), (0, 0));
  ((754, 2), (396285, 5), (0, 0));
  ((756, 2), (396281, 5), (0, 0));
  ((758, 2), (396278, 5), (0, 0));
  ((76, 1), (396274, 5), (0, 0));
  ((762, 2), (39627, 4), (0, 0));
  ((764, 2), (396266, 5), (0, 0));
  ((766, 2), (396262, 5), (0, 0));
  ((768, 2), (396259, 5), (0, 0));
  ((77, 1), (396255, 5), (0, 0));
  ((772, 2), (396251, 5), (0, 0));
  ((774, 2), (396248, 5), (0, 0));
  ((776, 2), (396244, 5), (0, 0));
  ((778, 2), (396241, 5), (0, 0));
  ((78, 1), (396237, 5), (0, 0));
  ((782, 2), (396233, 5), (0, 0));
  ((784, 2), (39623, 4), (0, 0));
  ((786, 2), (396226, 5), (0, 0));
  ((788, 2), (396223, 5), (0, 0));
  ((79, 1), (39622, 4), (0, 0));
  ((792, 2), (396216, 5), (0, 0));
  ((794, 2), (396213, 5), (0, 0));
  ((796, 2), (396209, 5), (0, 0));
  ((798, 2), (396206, 5), (0, 0));
  ((8, 0), (396203, 5), (0, 0));
  ((802, 2), (3962, 3), (0, 0));
  ((804, 2), (396196, 5), (0, 0));
  ((806, 2), (396193, 5), (0, 0));
  ((808, 2), (39619, 4), (0, 0));
  ((81, 1), (396187, 5), (0, 0));
  ((812, 2), (396184, 5), (0, 0));
  ((814, 2), (39618, 4), (0, 0));
  ((816, 2), (396177, 5), (0, 0));
  ((818, 2), (396174, 5), (0, 0));
  ((82, 1), (396171, 5), (0, 0));
  ((822, 2), (396168, 5), (0, 0));
  ((824, 2), (396165, 5), (0, 0));
  ((826, 2), (396162, 5), (0, 0));
  ((828, 2), (396159, 5), (0, 0));
  ((83, 1), (396156, 5), (0, 0));
  ((832, 2), (396153, 5), (0, 0));
  ((834, 2), (39615, 4), (0, 0));
  ((836, 2), (396148, 5), (0, 0));
  ((838, 2), (396145, 5), (0, 0));
  ((84, 1), (396142, 5), (0, 0));
  ((842, 2), (396139, 5), (0, 0));
  ((844, 2), (396136, 5), (0, 0));
  ((846, 2), (396133, 5), (0, 0));
  ((848, 2), (396131, 5), (0, 0));
  ((85, 1), (396128, 5), (0, 0));
  ((852, 2), (396125, 5), (0, 0));
  ((854, 2), (396123, 5), (0, 0));
  ((856, 2), (39612, 4), (0, 0));
  ((858, 2), (396117, 5), (0, 0));
  ((86, 1), (396115, 5), (0, 0));
  ((862, 2), (396112, 5), (0, 0));
  ((864, 2), (396109, 5), (0, 0));
  ((866, 2), (396107, 5), (0, 0));
  ((868, 2), (396104, 5), (0, 0));
  ((87, 1), (396102, 5), (0, 0));
  ((872, 2), (396099, 5), (0, 0));
  ((874, 2), (396096, 5), (0, 0));
  ((876, 2), (396094, 5), (0, 0));
  ((878, 2), (396091, 5), (0, 0));
  ((88, 1), (396089, 5), (0, 0));
  ((882, 2), (396087, 5), (0, 0));
  ((884, 2), (396084, 5), (0, 0));
  ((886, 2), (396082, 5), (0, 0));
  ((888, 2), (396079, 5), (0, 0));
  ((89, 1), (396077, 5), (0, 0));
  ((892, 2), (396074, 5), (0, 0));
  ((894, 2), (396072, 5), (0, 0));
  ((896, 2), (39607, 4), (0, 0));
  ((898, 2), (396067, 5), (0, 0));
  ((9, 0), (396065, 5), (0, 0));
  ((902, 2), (396063, 5), (0, 0));
  ((904, 2), (396061, 5), (0, 0));
  ((906, 2), (396058, 5), (0, 0));
  ((908, 2), (396056, 5), (0, 0));
  ((91, 1), (396054, 5), (0, 0));
  ((912, 2), (396052, 5), (0, 0));
  ((914, 2), (396049, 5), (0, 0));
  ((916, 2), (396047, 5), (0, 0));
  ((918, 2), (396045, 5), (0, 0));
  ((92, 1), (396043, 5), (0, 0));
  ((922, 2), (396041, 5), (0, 0));
  ((924, 2), (396039, 5), (0, 0));
  ((926, 2), (396036, 5), (0, 0));
  ((928, 2), (396034, 5), (0, 0));
  ((93, 1), (396032, 5), (0, 0));
  ((932, 2), (39603, 4), (0, 0));
  ((934, 2), (396028, 5), (0, 0));
  ((936, 2), (396026, 5), (0, 0));
  ((938, 2), (396024, 5), (0, 0));
  ((94, 1), (396022, 5), (0, 0));
  ((942, 2), (39602, 4), (0, 0));
  ((944, 2), (396018, 5), (0, 0));
  ((946, 2), (396016, 5), (0, 0));
  ((948, 2), (396014, 5), (0, 0));
  ((95, 1), (396012, 5), (0, 0));
  ((952, 2), (39601, 4), (0, 0));
  ((954, 2), (396008, 5), (0, 0));
  ((956, 2), (396006, 5), (0, 0));
  ((958, 2), (396004, 5), (0, 0));
  ((96, 1), (396002, 5), (0, 0));
  ((962, 2), (396, 2), (0, 0));
  ((964, 2), (395999, 5), (0, 0));
  ((966, 2), (395997, 5), (0, 0));
  ((968, 2), (395995, 5), (0, 0));
  ((97, 1), (395993, 5), (0, 0));
  ((972, 2), (395991, 5), (0, 0));
  ((974, 2), (395989, 5), (0, 0));
  ((976, 2), (395988, 5), (0, 0));
  ((978, 2), (395986, 5), (0, 0));
  ((98, 1), (395984, 5), (0, 0));
  ((982, 2), (395982, 5), (0, 0));
  ((984, 2), (39598, 4), (0, 0));
  ((986, 2), (395979, 5), (0, 0));
  ((988, 2), (395977, 5), (0, 0));
  ((99, 1), (395975, 5), (0, 0));
  ((992, 2), (395973, 5), (0, 0));
  ((994, 2), (395972, 5), (0, 0));
  ((996, 2), (39597, 4), (0, 0));
  ((998, 2), (395968, 5), (0, 0));
  ((10, 0), (395967, 5), (0, 0));
  ((1002, 2), (395965, 5), (0, 0));
  ((1004, 2), (395963, 5), (0, 0));
  ((1006, 2), (395962, 5), (0, 0));
  ((1008, 2), (39596, 4), (0, 0));
  ((101, 1), (395958, 5), (0, 0));
  ((1012, 2), (395957, 5), (0, 0));
  ((1014, 2), (395955, 5), (0, 0));
  ((1016, 2), (395954, 5), (0, 0));
  ((1018, 2), (395952, 5), (0, 0));
  ((102, 1), (39595, 4), (0, 0));
  ((1022, 2), (395949, 5), (0, 0));
  ((1024, 2), (395947, 5), (0, 0));
  ((1026, 2), (395946, 5), (0, 0));
  ((1028, 2), (395944, 5), (0, 0));
  ((103, 1), (395943, 5), (0, 0));
  ((1032, 2), (395941, 5), (0, 0));
  ((1034, 2), (395939, 5), (0, 0));
  ((1036, 2), (395938, 5), (0, 0));
  ((1038, 2), (395936, 5), (0, 0));
  ((104, 1), (395935, 5), (0, 0));
  ((1042, 2), (395933, 5), (0, 0));
  ((1044, 2), (395932, 5), (0, 0));
  ((1046, 2), (395931, 5), (0, 0));
  ((1048, 2), (395929, 5), (0, 0));
  ((105, 1), (395928, 5), (0, 0));
  ((1052, 2), (395926, 5), (0, 0));
  ((1054, 2), (395925, 5), (0, 0));
  ((1056, 2), (395923, 5), (0, 0));
  ((1058, 2), (395922, 5), (0, 0));
  ((106, 1), (39592, 4), (0, 0));
  ((1062, 2), (395919, 5), (0, 0));
  ((1064, 2), (395918, 5), (0, 0));
  ((1066, 2), (395916, 5), (0, 0));
  ((1068, 2), (395915, 5), (0, 0));
  ((107, 1), (395913, 5), (0, 0));
  ((1072, 2), (395912, 5), (0, 0));
  ((1074, 2), (395911, 5), (0, 0));
  ((1076, 2), (395909, 5), (0, 0));
  ((1078, 2), (395908, 5), (0, 0));
  ((108, 1), (395907, 5), (0, 0));
  ((1082, 2), (395905, 5), (0, 0));
  ((1084, 2), (395904, 5), (0, 0));
  ((1086, 2), (395903, 5), (0, 0));
  ((1088, 2), (395901, 5), (0, 0));
  ((109, 1), (3959, 3), (0, 0));
  ((1092, 2), (395899, 5), (0, 0));
  ((1094, 2), (395898, 5), (0, 0));
  ((1096, 2), (395896, 5), (0, 0));
  ((1098, 2), (395895, 5), (0, 0));
  ((11, 0), (395894, 5), (0, 0))].

(** nidn/materials/data/indium_arsenide.csv, lines 2-201 *)
Definition indium_arsenide : list line :=
 [((20664, 5), (12743, 4), (1581, 3));
  ((20767, 5), (12771, 4), (15975, 4));
  ((2087, 4), (12799, 4), (16144, 4));
  ((20975, 5), (12829, 4), (16316, 4));
  ((21081, 5), (12859, 4), (16493, 4));
  ((21188, 5), (1289, 3), (16673, 4));
  ((21295, 5), (12923, 4), (16859, 4));
  ((21404, 5), (12956, 4), (17049, 4));
  ((21515, 5), (12991, 4), (17244, 4));
  ((21626, 5), (13027, 4), (17444, 4));
  ((21738, 5), (13065, 4), (1765, 3));
  ((21852, 5), (13104, 4), (17862, 4));
  ((21967, 5), (13145, 4), (1808, 3));
  ((22083, 5), (13187, 4), (18305, 4));
  ((222, 3), (13232, 4), (18537, 4));
  ((22318, 5), (13279, 4), (18777, 4));
  ((22438, 5), (13328, 4), (19024, 4));
  ((22559, 5), (13381, 4), (1928, 3));
  ((22681, 5), (13436, 4), (19545, 4));
  ((22805, 5), (13495, 4), (1982, 3));
  ((2293, 4), (13558, 4), (20106, 4));
  ((23057, 5), (13625, 4), (20403, 4));
  ((23184, 5), (13698, 4), (20711, 4));
  ((23314, 5), (13776, 4), (21033, 4));
  ((23444, 5), (1386, 3), (21368, 4));
  ((23577, 5), (13952, 4), (21718, 4));
  ((2371, 4), (14052, 4), (22085, 4));
  ((23845, 5), (14162, 4), (22468, 4));
  ((23982, 5), (14284, 4), (2287, 3));
  ((2412, 4), (14418, 4), (23291, 4));
  ((2426, 4), (14568, 4), (23734, 4));
  ((24402, 5), (14735, 4), (242, 2));
  ((24545, 5), (14922, 4), (24691, 4));
  ((2469, 4), (15134, 4), (25207, 4));
  ((24837, 5), (15373, 4), (25752, 4));
  ((24985, 5), (15646, 4), (26326, 4));
  ((25135, 5), (15959, 4), (2693, 3));
  ((25287, 5), (16317, 4), (27567, 4));
  ((25441, 5), (1673, 3), (28235, 4));
  ((25597, 5), (17209, 4), (28936, 4));
  ((25755, 5), (17765, 4), (29666, 4));
  ((25914, 5), (18413, 4), (30422, 4));
  ((26076, 5), (19169, 4), (31195, 4));
  ((26239, 5), (20051, 4), (31975, 4));
  ((26405, 5), (21081, 4), (32741, 4));
  ((26573, 5), (22277, 4), (33468, 4));
  ((26743, 5), (23656, 4), (34117, 4));
  ((26915, 5), (25228, 4), (34637, 4));
  ((27089, 5), (26987, 4), (34965, 4));
  ((27266, 5), (28901, 4), (3503, 3));
  ((27445, 5), (30909, 4), (34765, 4));
  ((27626, 5), (32916, 4), (34121, 4));
  ((2781, 4), (34802, 4), (33091, 4));
  ((27996, 5), (36446, 4), (31719, 4));
  ((28185, 5), (37753, 4), (30098, 4));
  ((28376, 5), (38678, 4), (28349, 4));
  ((2857, 4), (39228, 4), (26592, 4));
  ((28766, 5), (3945, 3), (24922, 4));
  ((28966, 5), (39411, 4), (23403, 4));
  ((29168, 5), (39181, 4), (22064, 4));
  ((29372, 5), (38823, 4), (20914, 4));
  ((2958, 4), (38388, 4), (19943, 4));
  ((29791, 5), (37914, 4), (19136, 4));
  ((30005, 5), (37429, 4), (18474, 4));
  ((30222, 5), (36951, 4), (17936, 4));
  ((30442, 5), (36493, 4), (17505, 4));
  ((30665, 5), (36064, 4), (17164, 4));
  ((30891, 5), (35667, 4), (16899, 4));
  ((31121, 5), (35304, 4), (16698, 4));
  ((31354, 5), (34978, 4), (16551, 4));
  ((31591, 5), (34688, 4), (1645, 3));
  ((31832, 5), (34432, 4), (16386, 4));
  ((32076, 5), (34211, 4), (16355, 4));
  ((32324, 5), (34023, 4), (1635, 3));
  ((32576, 5), (33865, 4), (16369, 4));
  ((32831, 5), (33738, 4), (16407, 4));
  ((33091, 5), (3364, 3), (16462, 4));
  ((33355, 5), (33569, 4), (1653, 3));
  ((33623, 5), (33524, 4), (1661, 3));
  ((33896, 5), (33504, 4), (167, 2));
  ((34173, 5), (33508, 4), (16798, 4));
  ((34454, 5), (33536, 4), (16903, 4));
  ((34741, 5), (33585, 4), (17014, 4));
  ((35032, 5), (33657, 4), (17131, 4));
  ((35328, 5), (3375, 3), (17251, 4));
  ((35629, 5), (33863, 4), (17374, 4));
  ((35935, 5), (33996, 4), (17501, 4));
  ((36246, 5), (3415, 3), (17629, 4));
  ((36563, 5), (34322, 4), (17759, 4));
  ((36886, 5), (34515, 4), (1789, 3));
  ((37214, 5), (34726, 4), (18022, 4));
  ((37548, 5), (34957, 4), (18155, 4));
  ((37888, 5), (35207, 4), (18287, 4));
  ((38235, 5), (35477, 4), (18419, 4));
  ((38588, 5), (35766, 4), (18551, 4));
  ((38947, 5), (36076, 4), (18681, 4));
  ((39313, 5), (36406, 4), (18811, 4));
  ((39686, 5), (36756, 4), (18939, 4));
  ((40066, 5), (37128, 4), (19066, 4));
  ((40454, 5), (37521, 4), (19191, 4));
  ((40849, 5), (37937, 4), (19314, 4));
  ((41252, 5), (38375, 4), (19434, 4));
  ((41663, 5), (38837, 4), (19553, 4));
  ((42082, 5), (39324, 4), (19668, 4));
  ((4251, 4), (39835, 4), (19781, 4));
  ((42947, 5), (40372, 4), (19892, 4));
  ((43392, 5), (40935, 4), (2, 0));
  ((43847, 5), (41523, 4), (20106, 4));
  ((44312, 5), (42137, 4), (2021, 3));
  ((44786, 5), (42774, 4), (20314, 4));
  ((45271, 5), (43432, 4), (2042, 3));
  ((45767, 5), (44107, 4), (20528, 4));
  ((46273, 5), (44791, 4), (20644, 4));
  ((46791, 5), (45475, 4), (20772, 4));
  ((4732, 4), (46142, 4), (2092, 3));
  ((47862, 5), (46775, 4), (21094, 4));
  ((48416, 5), (4735, 3), (21306, 4));
  ((48983, 5), (47847, 4), (21566, 4));
  ((49564, 5), (4825, 3), (2188, 3));
  ((50158, 5), (48268, 4), (21631, 4));
  ((50767, 5), (47112, 4), (18891, 4));
  ((51391, 5), (46156, 4), (16652, 4));
  ((5203, 4), (45271, 4), (14626, 4));
  ((52686, 5), (44426, 4), (12698, 4));
  ((53358, 5), (43618, 4), (108, 2));
  ((54048, 5), (42855, 4), (88924, 5));
  ((54756, 5), (42219, 4), (73438, 5));
  ((55482, 5), (41859, 4), (72423, 5));
  ((56228, 5), (41503, 4), (71363, 5));
  ((56994, 5), (41155, 4), (70251, 5));
  ((57782, 5), (40817, 4), (69082, 5));
  ((58591, 5), (40491, 4), (67853, 5));
  ((59424, 5), (40177, 4), (66564, 5));
  ((60281, 5), (39875, 4), (65213, 5));
  ((61162, 5), (39585, 4), (63802, 5));
  ((6207, 4), (39306, 4), (62331, 5));
  ((63005, 5), (39039, 4), (608, 3));
  ((63969, 5), (38782, 4), (59212, 5));
  ((64963, 5), (38536, 4), (57567, 5));
  ((65988, 5), (38299, 4), (55867, 5));
  ((67046, 5), (38072, 4), (54115, 5));
  ((68138, 5), (37854, 4), (52312, 5));
  ((69267, 5), (37644, 4), (5046, 4));
  ((70433, 5), (37443, 4), (48563, 5));
  ((7164, 4), (37249, 4), (46622, 5));
  ((72889, 5), (37064, 4), (44643, 5));
  ((74182, 5), (36886, 4), (42627, 5));
  ((75521, 5), (36715, 4), (40579, 5));
  ((7691, 4), (36552, 4), (38505, 5));
  ((78351, 5), (36395, 4), (3641, 4));
  ((79847, 5), (36245, 4), (34299, 5));
  ((81402, 5), (36102, 4), (3218, 4));
  ((83018, 5), (35965, 4), (30062, 5));
  ((84699, 5), (35835, 4), (27953, 5));
  ((8645, 4), (35712, 4), (25864, 5));
  ((88275, 5), (35594, 4), (23808, 5));
  ((90179, 5), (35483, 4), (21797, 5));
  ((92166, 5), (35379, 4), (19849, 5));
  ((94243, 5), (3528, 3), (17982, 5));
  ((96416, 5), (35187, 4), (16217, 5));
  ((98691, 5), (35101, 4), (14578, 5));
  ((10108, 4), (3502, 3), (13093, 5));
  ((10358, 4), (34945, 4), (11795, 5));
  ((10621, 4), (34876, 4), (10721, 5));
  ((10898, 4), (34813, 4), (9914, 5));
  ((1119, 3), (34755, 4), (94251, 6));
  ((11497, 4), (34704, 4), (93127, 6));
  ((11822, 4), (34659, 4), (9522, 5));
  ((12166, 4), (34619, 4), (97538, 6));
  ((12531, 4), (34584, 4), (99878, 6));
  ((12918, 4), (34556, 4), (10221, 5));
  ((13329, 4), (34534, 4), (10449, 5));
  ((13768, 4), (34519, 4), (10665, 5));
  ((14237, 4), (34511, 4), (10858, 5));
  ((14739, 4), (34512, 4), (11009, 5));
  ((15277, 4), (34521, 4), (1108, 4));
  ((15857, 4), (34541, 4), (10971, 5));
  ((16482, 4), (34501, 4), (10283, 5));
  ((17158, 4), (34452, 4), (10687, 5));
  ((17892, 4), (34438, 4), (11099, 5));
  ((18692, 4), (34443, 4), (11519, 5));
  ((19566, 4), (34465, 4), (11943, 5));
  ((20527, 4), (34504, 4), (12361, 5));
  ((21586, 4), (34562, 4), (12756, 5));
  ((22761, 4), (34641, 4), (13103, 5));
  ((24071, 4), (34748, 4), (13358, 5));
  ((25541, 4), (34886, 4), (13448, 5));
  ((27203, 4), (35064, 4), (13246, 5));
  ((29095, 4), (35292, 4), (12505, 5));
  ((31271, 4), (35584, 4), (10659, 5));
  ((33798, 4), (3596, 3), (54338, 6));
  ((3677, 3), (35337, 4), (20848, 7));
  ((40315, 4), (35098, 4), (19108, 7));
  ((44616, 4), (34958, 4), (17304, 7));
  ((49945, 4), (34861, 4), (15477, 7));
  ((56719, 4), (34788, 4), (13638, 7));
  ((65619, 4), (34732, 4), (11793, 7));
  ((77832, 4), (34689, 4), (99444, 8));
  ((95631, 4), (34655, 4), (80944, 8));
  ((12398, 3), (3463, 3), (62436, 8))].

(** nidn/materials/data/silicon_nitride.csv, lines 2-1452 *)
Definition silicon_nitride : list line :=
 [((153846, 5), (246306, 5), (3, 5));
  ((153941, 5), (246305, 5), (3, 5));
  ((154036, 5), (246304, 5), (3, 5));
  ((154131, 5), (246302, 5), (3, 5));
  ((154226, 5), (246301, 5), (3, 5));
  ((154321, 5), (2463, 3), (3, 5));
  ((154416, 5), (246299, 5), (3, 5));
  ((154512, 5), (246297, 5), (3, 5));
  ((154607, 5), (246296, 5), (3, 5));
  ((154703, 5), (246295, 5), (3, 5));
  ((154799, 5), (246293, 5), (3, 5));
  ((154895, 5), (246292, 5), (3, 5));
  ((154991, 5), (246291, 5), (3, 5));
  ((155087, 5), (24629, 4), (3, 5));
  ((155183, 5), (246288, 5), (3, 5));
  ((15528, 4), (246287, 5), (3, 5));
  ((155376, 5), (246286, 5), (3, 5));
  ((155473, 5), (246284, 5), (3, 5));
  ((155569, 5), (246283, 5), (3, 5));
  ((155666, 5), (246282, 5), (3, 5));
  ((155763, 5), (24628, 4), (3, 5));
  ((15586, 4), (246279, 5), (3, 5));
  ((155958, 5), (246278, 5), (3, 5));
  ((156055, 5), (246276, 5), (3, 5));
  ((156152, 5), (246275, 5), (3, 5));
  ((15625, 4), (246274, 5), (3, 5));
  ((156348, 5), (246272, 5), (3, 5));
  ((156446, 5), (246271, 5), (3, 5));
  ((156544, 5), (24627, 4), (3, 5));
  ((156642, 5), (246268, 5), (3, 5));
  ((15674, 4), (246267, 5), (3, 5));
  ((156838, 5), (246266, 5), (3, 5));
  ((156937, 5), (246264, 5), (3, 5));
  ((157035, 5), (246263, 5), (3, 5));
  ((157134, 5), (246262, 5), (3, 5));
  ((157233, 5), (24626, 4), (3, 5));
  ((157332, 5), (246259, 5), (3, 5));
  ((157431, 5), (246258, 5), (3, 5));
  ((15753, 4), (246256, 5), (3, 5));
  ((157629, 5), (246255, 5), (3, 5));
  ((157729, 5), (246253, 5), (3, 5));
  ((157828, 5), (246252, 5), (3, 5));
  ((157928, 5), (246251, 5), (3, 5));
  ((158028, 5), (246249, 5), (3, 5));
  ((158128, 5), (246248, 5), (3, 5));
  ((158228, 5), (246246, 5), (3, 5));
  ((158328, 5), (246245, 5), (3, 5));
  ((158428, 5), (246244, 5), (3, 5));
  ((158529, 5), (246242, 5), (3, 5));
  ((158629, 5), (246241, 5), (3, 5));
  ((15873, 4), (24624, 4), (3, 5));
  ((158831, 5), (246238, 5), (3, 5));
  ((158932, 5), (246237, 5), (3, 5));
  ((159033, 5), (246235, 5), (3, 5));
  ((159134, 5), (246234, 5), (3, 5));
  ((159236, 5), (246232, 5), (3, 5));
  ((159337, 5), (246231, 5), (3, 5));
  ((159439, 5), (24623, 4), (3, 5));
  ((159541, 5), (246228, 5), (3, 5));
  ((159642, 5), (246227, 5), (3, 5));
  ((159744, 5), (246225, 5), (3, 5));
  ((159847, 5), (246224, 5), (3, 5));
  ((159949, 5), (246223, 5), (3, 5));
  ((160051, 5), (246221, 5), (3, 5));
  ((160154, 5), (24622, 4), (3, 5));
  ((160256, 5), (246218, 5), (3, 5));
  ((160359, 5), (246217, 5), (3, 5));
  ((160462, 5), (246215, 5), (3, 5));
  ((160565, 5), (246214, 5), (3, 5));
  ((160668, 5), (246212, 5), (3, 5));
  ((160772, 5), (246211, 5), (3, 5));
  ((160875, 5), (24621, 4), (4, 5));
  ((160979, 5), (246208, 5), (4, 5));
  ((161082, 5), (246207, 5), (4, 5));
  ((161186, 5), (246205, 5), (4, 5));
  ((16129, 4), (246204, 5), (4, 5));
  ((161394, 5), (246202, 5), (4, 5));
  ((161499, 5), (246201, 5), (4, 5));
  ((161603, 5), (246199, 5), (4, 5));
  ((161708, 5), (246198, 5), (4, 5));
  ((161812, 5), (246196, 5), (4, 5));
  ((161917, 5), (246195, 5), (4, 5));
  ((162022, 5), (246193, 5), (4, 5));
  ((162127, 5), (246192, 5), (4, 5));
  ((162232, 5), (24619, 4), (4, 5));
  ((162338, 5), (246189, 5), (4, 5));
  ((162443, 5), (246187, 5), (4, 5));
  ((162549, 5), (246186, 5), (4, 5));
  ((162655, 5), (246184, 5), (4, 5));
  ((16276, 4), (246183, 5), (4, 5));
  ((162866, 5), (246181, 5), (4, 5));
  ((162973, 5), (24618, 4), (4, 5));
  ((163079, 5), (246178, 5), (4, 5));
  ((163185, 5), (246177, 5), (4, 5));
  ((163292, 5), (246175, 5), (4, 5));
  ((163399, 5), (246174, 5), (4, 5));
  ((163506, 5), (246172, 5), (4, 5));
  ((163613, 5), (246171, 5), (4, 5));
  ((16372, 4), (246169, 5), (4, 5));
  ((163827, 5), (246167, 5), (4, 5));
  ((163934, 5), (246166, 5), (4, 5));
  ((164042, 5), (246164, 5), (4, 5));
  ((16415, 4), (246163, 5), (4, 5));
  ((164258, 5), (246161, 5), (4, 5));
  ((164366, 5), (24616, 4), (4, 5));
  ((164474, 5), (246158, 5), (4, 5));
  ((164582, 5), (246157, 5), (4, 5));
  ((16469, 4), (246155, 5), (4, 5));
  ((164799, 5), (246153, 5), (4, 5));
  ((164908, 5), (246152, 5), (4, 5));
  ((165017, 5), (24615, 4), (4, 5));
  ((165125, 5), (246149, 5), (4, 5));
  ((165235, 5), (246147, 5), (4, 5));
  ((165344, 5), (246146, 5), (4, 5));
  ((165453, 5), (246144, 5), (4, 5));
  ((165563, 5), (246142, 5), (4, 5));
  ((165673, 5), (246141, 5), (4, 5));
  ((165782, 5), (246139, 5), (4, 5));
  ((165893, 5), (246138, 5), (4, 5));
  ((166003, 5), (246136, 5), (4, 5));
  ((166113, 5), (246134, 5), (4, 5));
  ((166223, 5), (246133, 5), (4, 5));
  ((166334, 5), (246131, 5), (4, 5));
  ((166445, 5), (246129, 5), (4, 5));
  ((166556, 5), (246128, 5), (4, 5));
  ((166667, 5), (246126, 5), (4, 5));
  ((166778, 5), (246125, 5), (4, 5));
  ((166889, 5), (246123, 5), (4, 5));
  ((167001, 5), (246121, 5), (4, 5));
  ((167112, 5), (24612, 4), (4, 5));
  ((167224, 5), (246118, 5), (4, 5));
  ((167336, 5), (246116, 5), (4, 5));
  ((167448, 5), (246115, 5), (4, 5));
  ((16756, 4), (246113, 5), (4, 5));
  ((167673, 5), (246111, 5), (4, 5));
  ((167785, 5), (24611, 4), (4, 5));
  ((167898, 5), (246108, 5), (4, 5));
  ((168011, 5), (246106, 5), (4, 5));
  ((168124, 5), (246105, 5), (4, 5));
  ((168237, 5), (246103, 5), (4, 5));
  ((16835, 4), (246101, 5), (4, 5));
  ((168464, 5), (2461, 3), (4, 5));
  ((168577, 5), (246098, 5), (4, 5));
  ((168691, 5), (246096, 5), (4, 5));
  ((168805, 5), (246095, 5), (4, 5));
  ((168919, 5), (246093, 5), (4, 5));
  ((169033, 5), (246091, 5), (4, 5));
  ((169147, 5), (24609, 4), (4, 5));
  ((169262, 5), (246088, 5), (4, 5));
  ((169377, 5), (246086, 5), (4, 5));
  ((169492, 5), (246084, 5), (4, 5));
  ((169607, 5), (246083, 5), (4, 5));
  ((169722, 5), (246081, 5), (4, 5));
  ((169837, 5), (246079, 5), (4, 5));
  ((169952, 5), (246077, 5), (4, 5));
  ((170068, 5), (246076, 5), (4, 5));
  ((170184, 5), (246074, 5), (4, 5));
  ((1703, 3), (246072, 5), (4, 5));
  ((170416, 5), (246071, 5), (4, 5));
  ((170532, 5), (246069, 5), (4, 5));
  ((170648, 5), (246067, 5), (4, 5));
  ((170765, 5), (246065, 5), (4, 5));
  ((170882, 5), (246063, 5), (4, 5));
  ((170999, 5), (246062, 5), (4, 5));
  ((171116, 5), (24606, 4), (4, 5));
  ((171233, 5), (246058, 5), (4, 5));
  ((17135, 4), (246056, 5), (4, 5));
  ((171468, 5), (246055, 5), (4, 5));
  ((171585, 5), (246053, 5), (4, 5));
  ((171703, 5), (246051, 5), (4, 5));
  ((171821, 5), (246049, 5), (4, 5));
  ((171939, 5), (246047, 5), (4, 5));
  ((172058, 5), (246046, 5), (4, 5));
  ((172176, 5), (246044, 5), (4, 5));
  ((172295, 5), (246042, 5), (4, 5));
  ((172414, 5), (24604, 4), (4, 5));
  ((172533, 5), (246038, 5), (4, 5));
  ((172652, 5), (246037, 5), (4, 5));
  ((172771, 5), (246035, 5), (4, 5));
  ((172891, 5), (246033, 5), (4, 5));
  ((17301, 4), (246031, 5), (4, 5));
  ((17313, 4), (246029, 5), (4, 5));
  ((17325, 4), (246027, 5), (4, 5));
  ((17337, 4), (246026, 5), (4, 5));
  ((173491, 5), (246024, 5), (4, 5));
  ((173611, 5), (246022, 5), (4, 5));
  ((173732, 5), (24602, 4), (4, 5));
  ((173853, 5), (246018, 5), (5, 5));
  ((173974, 5), (246016, 5), (5, 5));
  ((174095, 5), (246015, 5), (5, 5));
  ((174216, 5), (246013, 5), (5, 5));
  ((174338, 5), (246011, 5), (5, 5));
  ((174459, 5), (246009, 5), (5, 5));
  ((174581, 5), (246007, 5), (5, 5));
  ((174703, 5), (246005, 5), (5, 5));
  ((174825, 5), (246003, 5), (5, 5));
  ((174948, 5), (246001, 5), (5, 5));
  ((17507, 4), (245999, 5), (5, 5));
  ((175193, 5), (245998, 5), (5, 5));
  ((175316, 5), (245996, 5), (5, 5));
  ((175439, 5), (245994, 5), (5, 5));
  ((175562, 5), (245992, 5), (5, 5));
  ((175685, 5), (24599, 4), (5, 5));
  ((175809, 5), (245988, 5), (5, 5));
  ((175932, 5), (245986, 5), (5, 5));
  ((176056, 5), (245984, 5), (5, 5));
  ((17618, 4), (245982, 5), (5, 5));
  ((176305, 5), (24598, 4), (5, 5));
  ((176429, 5), (245978, 5), (5, 5));
  ((176554, 5), (245976, 5), (5, 5));
  ((176678, 5), (245974, 5), (5, 5));
  ((176803, 5), (245972, 5), (5, 5));
  ((176929, 5), (24597, 4), (5, 5));
  ((177054, 5), (245969, 5), (5, 5));
  ((177179, 5), (245967, 5), (5, 5));
  ((177305, 5), (245965, 5), (5, 5));
  ((177431, 5), (245963, 5), (5, 5));
  ((177557, 5), (245961, 5), (5, 5));
  ((177683, 5), (245959, 5), (5, 5));
  ((177809, 5), (245957, 5), (5, 5));
  ((177936, 5), (245955, 5), (5, 5));
  ((178063, 5), (245953, 5), (5, 5));
  ((17819, 4), (245951, 5), (5, 5));
  ((178317, 5), (245949, 5), (5, 5));
  ((178444, 5), (245947, 5), (5, 5));
  ((178571, 5), (245945, 5), (5, 5));
  ((178699, 5), (245943, 5), (5, 5));
  ((178827, 5), (245941, 5), (5, 5));
  ((178955, 5), (245938, 5), (5, 5));
  ((179083, 5), (245936, 5), (5, 5));
  ((179211, 5), (245934, 5), (5, 5));
  ((17934, 4), (245932, 5), (5, 5));
  ((179469, 5), (24593, 4), (5, 5));
  ((179598, 5), (245928, 5), (5, 5));
  ((179727, 5), (245926, 5), (5, 5));
  ((179856, 5), (245924, 5), (5, 5));
  ((179986, 5), (245922, 5), (5, 5));
  ((180115, 5), (24592, 4), (5, 5));
  ((180245, 5), (245918, 5), (5, 5));
  ((180375, 5), (245916, 5), (5, 5));
  ((180505, 5), (245914, 5), (5, 5));
  ((180636, 5), (245912, 5), (5, 5));
  ((180766, 5), (24591, 4), (5, 5));
  ((180897, 5), (245907, 5), (5, 5));
  ((181028, 5), (245905, 5), (5, 5));
  ((181159, 5), (245903, 5), (5, 5));
  ((181291, 5), (245901, 5), (5, 5));
  ((181422, 5), (245899, 5), (5, 5));
  ((181554, 5), (245897, 5), (5, 5));
  ((181686, 5), (245895, 5), (5, 5));
  ((181818, 5), (245893, 5), (5, 5));
  ((181951, 5), (24589, 4), (5, 5));
  ((182083, 5), (245888, 5), (5, 5));
  ((182216, 5), (245886, 5), (5, 5));
  ((182349, 5), (245884, 5), (5, 5));
  ((182482, 5), (245882, 5), (5, 5));
  ((182615, 5), (24588, 4), (5, 5));
  ((182749, 5), (245877, 5), (5, 5));
  ((182882, 5), (245875, 5), (5, 5));
  ((183016, 5), (245873, 5), (5, 5));
  ((18315, 4), (245871, 5), (5, 5));
  ((183284, 5), (245869, 5), (5, 5));
  ((183419, 5), (245867, 5), (5, 5));
  ((183554, 5), (245864, 5), (5, 5));
  ((183688, 5), (245862, 5), (5, 5));
  ((183824, 5), (24586, 4), (5, 5));
  ((183959, 5), (245858, 5), (5, 5));
  ((184094, 5), (245856, 5), (5, 5));
  ((18423, 4), (245853, 5), (5, 5));
  ((184366, 5), (245851, 5), (5, 5));
  ((184502, 5), (245849, 5), (5, 5));
  ((184638, 5), (245847, 5), (5, 5));
  ((184775, 5), (245844, 5), (6, 5));
  ((184911, 5), (245842, 5), (6, 5));
  ((185048, 5), (24584, 4), (6, 5));
  ((185185, 5), (245838, 5), (6, 5));
  ((185322, 5), (245835, 5), (6, 5));
  ((18546, 4), (245833, 5), (6, 5));
  ((185598, 5), (245831, 5), (6, 5));
  ((185736, 5), (245828, 5), (6, 5));
  ((185874, 5), (245826, 5), (6, 5));
  ((186012, 5), (245824, 5), (6, 5));
  ((18615, 4), (245822, 5), (6, 5));
  ((186289, 5), (245819, 5), (6, 5));
  ((186428, 5), (245817, 5), (6, 5));
  ((186567, 5), (245815, 5), (6, 5));
  ((186706, 5), (245812, 5), (6, 5));
  ((186846, 5), (24581, 4), (6, 5));
  ((186986, 5), (245808, 5), (6, 5));
  ((187126, 5), (245805, 5), (6, 5));
  ((187266, 5), (245803, 5), (6, 5));
  ((187406, 5), (245801, 5), (6, 5));
  ((187547, 5), (245798, 5), (6, 5));
  ((187688, 5), (245796, 5), (6, 5));
  ((187829, 5), (245794, 5), (6, 5));
  ((18797, 4), (245791, 5), (6, 5));
  ((188111, 5), (245789, 5), (6, 5));
  ((188253, 5), (245786, 5), (6, 5));
  ((188395, 5), (245784, 5), (6, 5));
  ((188537, 5), (245782, 5), (6, 5));
  ((188679, 5), (245779, 5), (6, 5));
  ((188822, 5), (245777, 5), (6, 5));
  ((188964, 5), (245774, 5), (6, 5));
  ((189107, 5), (245772, 5), (6, 5));
  ((189251, 5), (24577, 4), (6, 5));
  ((189394, 5), (245767, 5), (6, 5));
  ((189538, 5), (245765, 5), (6, 5));
  ((189681, 5), (245762, 5), (6, 5));
  ((189825, 5), (24576, 4), (6, 5));
  ((18997, 4), (245757, 5), (6, 5));
  ((190114, 5), (245755, 5), (6, 5));
  ((190259, 5), (245752, 5), (6, 5));
  ((190404, 5), (24575, 4), (6, 5));
  ((190549, 5), (245747, 5), (6, 5));
  ((190694, 5), (245745, 5), (6, 5));
  ((19084, 4), (245742, 5), (6, 5));
  ((190985, 5), (24574, 4), (6, 5));
  ((191131, 5), (245738, 5), (6, 5));
  ((191278, 5), (245735, 5), (6, 5));
  ((191424, 5), (245732, 5), (6, 5));
  ((191571, 5), (24573, 4), (6, 5));
  ((191718, 5), (245727, 5), (6, 5));
  ((191865, 5), (245725, 5), (6, 5));
  ((192012, 5), (245722, 5), (6, 5));
  ((19216, 4), (24572, 4), (6, 5));
  ((192308, 5), (245717, 5), (6, 5));
  ((192456, 5), (245715, 5), (6, 5));
  ((192604, 5), (245712, 5), (6, 5));
  ((192753, 5), (24571, 4), (6, 5));
  ((192901, 5), (245707, 5), (6, 5));
  ((19305, 4), (245704, 5), (6, 5));
  ((193199, 5), (245702, 5), (6, 5));
  ((193349, 5), (245699, 5), (6, 5));
  ((193498, 5), (245697, 5), (6, 5));
  ((193648, 5), (245694, 5), (6, 5));
  ((193798, 5), (245691, 5), (6, 5));
  ((193949, 5), (245689, 5), (6, 5));
  ((194099, 5), (245686, 5), (7, 5));
  ((19425, 4), (245684, 5), (7, 5));
  ((194401, 5), (245681, 5), (7, 5));
  ((194553, 5), (245678, 5), (7, 5));
  ((194704, 5), (245676, 5), (7, 5));
  ((194856, 5), (245673, 5), (7, 5));
  ((195008, 5), (24567, 4), (7, 5));
  ((19516, 4), (245668, 5), (7, 5));
  ((195313, 5), (245665, 5), (7, 5));
  ((195465, 5), (245662, 5), (7, 5));
  ((195618, 5), (24566, 4), (7, 5));
  ((195771, 5), (245657, 5), (7, 5));
  ((195925, 5), (245654, 5), (7, 5));
  ((196078, 5), (245651, 5), (7, 5));
  ((196232, 5), (245649, 5), (7, 5));
  ((196386, 5), (245646, 5), (7, 5));
  ((196541, 5), (245643, 5), (7, 5));
  ((196696, 5), (245641, 5), (7, 5));
  ((19685, 4), (245638, 5), (7, 5));
  ((197006, 5), (245635, 5), (7, 5));
  ((197161, 5), (245632, 5), (7, 5));
  ((197316, 5), (24563, 4), (7, 5));
  ((197472, 5), (245627, 5), (7, 5));
  ((197628, 5), (245624, 5), (7, 5));
  ((197785, 5), (245621, 5), (7, 5));
  ((197941, 5), (245618, 5), (7, 5));
  ((198098, 5), (245616, 5), (7, 5));
  ((198255, 5), (245613, 5), (7, 5));
  ((198413, 5), (24561, 4), (7, 5));
  ((19857, 4), (245607, 5), (7, 5));
  ((198728, 5), (245604, 5), (7, 5));
  ((198886, 5), (245602, 5), (7, 5));
  ((199045, 5), (245599, 5), (7, 5));
  ((199203, 5), (245596, 5), (7, 5));
  ((199362, 5), (245593, 5), (7, 5));
  ((199521, 5), (24559, 4), (7, 5));
  ((199681, 5), (245587, 5), (7, 5));
  ((19984, 4), (245584, 5), (7, 5));
  ((2, 0), (245582, 5), (7, 5));
  ((20016, 4), (245579, 5), (7, 5));
  ((200321, 5), (245576, 5), (7, 5));
  ((200481, 5), (245573, 5), (7, 5));
  ((200642, 5), (24557, 4), (7, 5));
  ((200803, 5), (245567, 5), (7, 5));
  ((200965, 5), (245564, 5), (7, 5));
  ((201126, 5), (245561, 5), (7, 5));
  ((201288, 5), (245558, 5), (7, 5));
  ((20145, 4), (245555, 5), (7, 5));
  ((201613, 5), (245552, 5), (7, 5));
  ((201776, 5), (245549, 5), (7, 5));
  ((201939, 5), (245546, 5), (7, 5));
  ((202102, 5), (245543, 5), (7, 5));
  ((202265, 5), (24554, 4), (7, 5));
  ((202429, 5), (245537, 5), (8, 5));
  ((202593, 5), (245534, 5), (8, 5));
  ((202758, 5), (245531, 5), (8, 5));
  ((202922, 5), (245528, 5), (8, 5));
  ((203087, 5), (245525, 5), (8, 5));
  ((203252, 5), (245522, 5), (8, 5));
  ((203417, 5), (245519, 5), (8, 5));
  ((203583, 5), (245516, 5), (8, 5));
  ((203749, 5), (245513, 5), (8, 5));
  ((203915, 5), (24551, 4), (8, 5));
  ((204082, 5), (245507, 5), (8, 5));
  ((204248, 5), (245504, 5), (8, 5));
  ((204415, 5), (245501, 5), (8, 5));
  ((204583, 5), (245498, 5), (8, 5));
  ((20475, 4), (245495, 5), (8, 5));
  ((204918, 5), (245491, 5), (8, 5));
  ((205086, 5), (245488, 5), (8, 5));
  ((205255, 5), (245485, 5), (8, 5));
  ((205423, 5), (245482, 5), (8, 5));
  ((205592, 5), (245479, 5), (8, 5));
  ((205761, 5), (245476, 5), (8, 5));
  ((205931, 5), (245473, 5), (8, 5));
  ((206101, 5), (245469, 5), (8, 5));
  ((206271, 5), (245466, 5), (8, 5));
  ((206441, 5), (245463, 5), (8, 5));
  ((206612, 5), (24546, 4), (8, 5));
  ((206782, 5), (245457, 5), (8, 5));
  ((206954, 5), (245453, 5), (8, 5));
  ((207125, 5), (24545, 4), (8, 5));
  ((207297, 5), (245447, 5), (8, 5));
  ((207469, 5), (245444, 5), (8, 5));
  ((207641, 5), (24544, 4), (8, 5));
  ((207814, 5), (245437, 5), (8, 5));
  ((207987, 5), (245434, 5), (8, 5));
  ((20816, 4), (245431, 5), (8, 5));
  ((208333, 5), (245427, 5), (8, 5));
  ((208507, 5), (245424, 5), (8, 5));
  ((208681, 5), (245421, 5), (8, 5));
  ((208855, 5), (245417, 5), (8, 5));
  ((20903, 4), (245414, 5), (8, 5));
  ((209205, 5), (245411, 5), (8, 5));
  ((20938, 4), (245407, 5), (8, 5));
  ((209556, 5), (245404, 5), (8, 5));
  ((209732, 5), (245401, 5), (8, 5));
  ((209908, 5), (245397, 5), (9, 5));
  ((210084, 5), (245394, 5), (9, 5));
  ((210261, 5), (245391, 5), (9, 5));
  ((210438, 5), (245387, 5), (9, 5));
  ((210615, 5), (245384, 5), (9, 5));
  ((210793, 5), (24538, 4), (9, 5));
  ((21097, 4), (245377, 5), (9, 5));
  ((211149, 5), (245374, 5), (9, 5));
  ((211327, 5), (24537, 4), (9, 5));
  ((211506, 5), (245367, 5), (9, 5));
  ((211685, 5), (245363, 5), (9, 5));
  ((211864, 5), (24536, 4), (9, 5));
  ((212044, 5), (245356, 5), (9, 5));
  ((212224, 5), (245353, 5), (9, 5));
  ((212404, 5), (245349, 5), (9, 5));
  ((212585, 5), (245346, 5), (9, 5));
  ((212766, 5), (245342, 5), (9, 5));
  ((212947, 5), (245339, 5), (9, 5));
  ((213129, 5), (245335, 5), (9, 5));
  ((213311, 5), (245332, 5), (9, 5));
  ((213493, 5), (245328, 5), (9, 5));
  ((213675, 5), (245325, 5), (9, 5));
  ((213858, 5), (245321, 5), (9, 5));
  ((214041, 5), (245317, 5), (9, 5));
  ((214225, 5), (245314, 5), (9, 5));
  ((214408, 5), (24531, 4), (9, 5));
  ((214592, 5), (245307, 5), (9, 5));
  ((214777, 5), (245303, 5), (9, 5));
  ((214961, 5), (245299, 5), (9, 5));
  ((215146, 5), (245296, 5), (9, 5));
  ((215332, 5), (245292, 5), (9, 5));
  ((215517, 5), (245288, 5), (9, 5));
  ((215703, 5), (245285, 5), (9, 5));
  ((215889, 5), (245281, 5), (9, 5));
  ((216076, 5), (245277, 5), (9, 5));
  ((216263, 5), (245274, 5), (9, 5));
  ((21645, 4), (24527, 4), (9, 5));
  ((216638, 5), (245266, 5), (9, 5));
  ((216826, 5), (245263, 5), (1, 4));
  ((217014, 5), (245259, 5), (1, 4));
  ((217202, 5), (245255, 5), (1, 4));
  ((217391, 5), (245251, 5), (1, 4));
  ((217581, 5), (245248, 5), (1, 4));
  ((21777, 4), (245244, 5), (1, 4));
  ((21796, 4), (24524, 4), (1, 4));
  ((21815, 4), (245236, 5), (1, 4));
  ((218341, 5), (245232, 5), (1, 4));
  ((218531, 5), (245229, 5), (1, 4));
  ((218723, 5), (245225, 5), (1, 4));
  ((218914, 5), (245221, 5), (1, 4));
  ((219106, 5), (245217, 5), (1, 4));
  ((219298, 5), (245213, 5), (1, 4));
  ((219491, 5), (245209, 5), (1, 4));
  ((219684, 5), (245205, 5), (1, 4));
  ((219877, 5), (245201, 5), (1, 4));
  ((22007, 4), (245198, 5), (1, 4));
  ((220264, 5), (245194, 5), (1, 4));
  ((220459, 5), (24519, 4), (1, 4));
  ((220653, 5), (245186, 5), (1, 4));
  ((220848, 5), (245182, 5), (1, 4));
  ((221043, 5), (245178, 5), (1, 4));
  ((221239, 5), (245174, 5), (1, 4));
  ((221435, 5), (24517, 4), (1, 4));
  ((221631, 5), (245166, 5), (1, 4));
  ((221828, 5), (245162, 5), (1, 4));
  ((222025, 5), (245158, 5), (1, 4));
  ((222222, 5), (245154, 5), (1, 4));
  ((22242, 4), (24515, 4), (1, 4));
  ((222618, 5), (245146, 5), (1, 4));
  ((222816, 5), (245142, 5), (1, 4));
  ((223015, 5), (245138, 5), (11, 5));
  ((223214, 5), (245133, 5), (11, 5));
  ((223414, 5), (245129, 5), (11, 5));
  ((223614, 5), (245125, 5), (11, 5));
  ((223814, 5), (245121, 5), (11, 5));
  ((224014, 5), (245117, 5), (11, 5));
  ((224215, 5), (245113, 5), (11, 5));
  ((224417, 5), (245109, 5), (11, 5));
  ((224618, 5), (245104, 5), (11, 5));
  ((22482, 4), (2451, 3), (11, 5));
  ((225023, 5), (245096, 5), (11, 5));
  ((225225, 5), (245092, 5), (11, 5));
  ((225428, 5), (245088, 5), (11, 5));
  ((225632, 5), (245083, 5), (11, 5));
  ((225836, 5), (245079, 5), (11, 5));
  ((22604, 4), (245075, 5), (11, 5));
  ((226244, 5), (245071, 5), (11, 5));
  ((226449, 5), (245066, 5), (11, 5));
  ((226655, 5), (245062, 5), (11, 5));
  ((22686, 4), (245058, 5), (11, 5));
  ((227066, 5), (245053, 5), (11, 5));
  ((227273, 5), (245049, 5), (11, 5));
  ((22748, 4), (245045, 5), (11, 5));
  ((227687, 5), (24504, 4), (11, 5));
  ((227894, 5), (245036, 5), (11, 5));
  ((228102, 5), (245032, 5), (11, 5));
  ((228311, 5), (245027, 5), (11, 5));
  ((228519, 5), (245023, 5), (11, 5));
  ((228728, 5), (245018, 5), (12, 5));
  ((228938, 5), (245014, 5), (12, 5));
  ((229148, 5), (245009, 5), (12, 5));
  ((229358, 5), (245005, 5), (12, 5));
  ((229568, 5), (245, 2), (12, 5));
  ((229779, 5), (244996, 5), (12, 5));
  ((229991, 5), (244991, 5), (12, 5));
  ((230203, 5), (244987, 5), (12, 5));
  ((230415, 5), (244982, 5), (12, 5));
  ((230627, 5), (244978, 5), (12, 5));
  ((23084, 4), (244973, 5), (12, 5));
  ((231054, 5), (244969, 5), (12, 5));
  ((231267, 5), (244964, 5), (12, 5));
  ((231481, 5), (244959, 5), (12, 5));
  ((231696, 5), (244955, 5), (12, 5));
  ((231911, 5), (24495, 4), (12, 5));
  ((232126, 5), (244946, 5), (12, 5));
  ((232342, 5), (244941, 5), (12, 5));
  ((232558, 5), (244936, 5), (12, 5));
  ((232775, 5), (244932, 5), (12, 5));
  ((232992, 5), (244927, 5), (12, 5));
  ((233209, 5), (244922, 5), (12, 5));
  ((233427, 5), (244917, 5), (12, 5));
  ((233645, 5), (244913, 5), (12, 5));
  ((233863, 5), (244908, 5), (12, 5));
  ((234082, 5), (244903, 5), (13, 5));
  ((234302, 5), (244898, 5), (13, 5));
  ((234522, 5), (244894, 5), (13, 5));
  ((234742, 5), (244889, 5), (13, 5));
  ((234962, 5), (244884, 5), (13, 5));
  ((235183, 5), (244879, 5), (13, 5));
  ((235405, 5), (244874, 5), (13, 5));
  ((235627, 5), (244869, 5), (13, 5));
  ((235849, 5), (244864, 5), (13, 5));
  ((236072, 5), (24486, 4), (13, 5));
  ((236295, 5), (244855, 5), (13, 5));
  ((236518, 5), (24485, 4), (13, 5));
  ((236742, 5), (244845, 5), (13, 5));
  ((236967, 5), (24484, 4), (13, 5));
  ((237192, 5), (244835, 5), (13, 5));
  ((237417, 5), (24483, 4), (13, 5));
  ((237643, 5), (244825, 5), (13, 5));
  ((237869, 5), (24482, 4), (13, 5));
  ((238095, 5), (244815, 5), (13, 5));
  ((238322, 5), (24481, 4), (13, 5));
  ((23855, 4), (244805, 5), (13, 5));
  ((238777, 5), (244799, 5), (13, 5));
  ((239006, 5), (244794, 5), (14, 5));
  ((239234, 5), (244789, 5), (14, 5));
  ((239464, 5), (244784, 5), (14, 5));
  ((239693, 5), (244779, 5), (14, 5));
  ((239923, 5), (244774, 5), (14, 5));
  ((240154, 5), (244769, 5), (14, 5));
  ((240385, 5), (244763, 5), (14, 5));
  ((240616, 5), (244758, 5), (14, 5));
  ((240848, 5), (244753, 5), (14, 5));
  ((24108, 4), (244748, 5), (14, 5));
  ((241313, 5), (244742, 5), (14, 5));
  ((241546, 5), (244737, 5), (14, 5));
  ((241779, 5), (244732, 5), (14, 5));
  ((242014, 5), (244727, 5), (14, 5));
  ((242248, 5), (244721, 5), (14, 5));
  ((242483, 5), (244716, 5), (14, 5));
  ((242718, 5), (244711, 5), (14, 5));
  ((242954, 5), (244705, 5), (14, 5));
  ((243191, 5), (2447, 3), (14, 5));
  ((243427, 5), (244694, 5), (14, 5));
  ((243665, 5), (244689, 5), (15, 5));
  ((243902, 5), (244683, 5), (15, 5));
  ((244141, 5), (244678, 5), (15, 5));
  ((244379, 5), (244672, 5), (15, 5));
  ((244618, 5), (244667, 5), (15, 5));
  ((244858, 5), (244661, 5), (15, 5));
  ((245098, 5), (244656, 5), (15, 5));
  ((245339, 5), (24465, 4), (15, 5));
  ((24558, 4), (244645, 5), (15, 5));
  ((245821, 5), (244639, 5), (15, 5));
  ((246063, 5), (244634, 5), (15, 5));
  ((246305, 5), (244628, 5), (15, 5));
  ((246548, 5), (244622, 5), (15, 5));
  ((246792, 5), (244617, 5), (15, 5));
  ((247036, 5), (244611, 5), (15, 5));
  ((24728, 4), (244605, 5), (15, 5));
  ((247525, 5), (244599, 5), (15, 5));
  ((24777, 4), (244594, 5), (15, 5));
  ((248016, 5), (244588, 5), (15, 5));
  ((248262, 5), (244582, 5), (16, 5));
  ((248509, 5), (244576, 5), (16, 5));
  ((248756, 5), (244571, 5), (16, 5));
  ((249004, 5), (244565, 5), (16, 5));
  ((249252, 5), (244559, 5), (16, 5));
  ((249501, 5), (244553, 5), (16, 5));
  ((24975, 4), (244547, 5), (16, 5));
  ((25, 1), (244541, 5), (16, 5));
  ((25025, 4), (244535, 5), (16, 5));
  ((250501, 5), (244529, 5), (16, 5));
  ((250752, 5), (244523, 5), (16, 5));
  ((251004, 5), (244517, 5), (16, 5));
  ((251256, 5), (244511, 5), (16, 5));
  ((251509, 5), (244505, 5), (16, 5));
  ((251762, 5), (244499, 5), (16, 5));
  ((252016, 5), (244493, 5), (16, 5));
  ((25227, 4), (244487, 5), (16, 5));
  ((252525, 5), (244481, 5), (17, 5));
  ((252781, 5), (244475, 5), (17, 5));
  ((253036, 5), (244469, 5), (17, 5));
  ((253293, 5), (244463, 5), (17, 5));
  ((25355, 4), (244456, 5), (17, 5));
  ((253807, 5), (24445, 4), (17, 5));
  ((254065, 5), (244444, 5), (17, 5));
  ((254323, 5), (244438, 5), (17, 5));
  ((254582, 5), (244431, 5), (17, 5));
  ((254842, 5), (244425, 5), (17, 5));
  ((255102, 5), (244419, 5), (17, 5));
  ((255363, 5), (244413, 5), (17, 5));
  ((255624, 5), (244406, 5), (17, 5));
  ((255885, 5), (2444, 3), (17, 5));
  ((256148, 5), (244393, 5), (17, 5));
  ((25641, 4), (244387, 5), (18, 5));
  ((256674, 5), (244381, 5), (18, 5));
  ((256937, 5), (244374, 5), (18, 5));
  ((257202, 5), (244368, 5), (18, 5));
  ((257467, 5), (244361, 5), (18, 5));
  ((257732, 5), (244355, 5), (18, 5));
  ((257998, 5), (244348, 5), (18, 5));
  ((258264, 5), (244341, 5), (18, 5));
  ((258532, 5), (244335, 5), (18, 5));
  ((258799, 5), (244328, 5), (18, 5));
  ((259067, 5), (244322, 5), (18, 5));
  ((259336, 5), (244315, 5), (18, 5));
  ((259605, 5), (244308, 5), (18, 5));
  ((259875, 5), (244301, 5), (18, 5));
  ((260146, 5), (244295, 5), (19, 5));
  ((260417, 5), (244288, 5), (19, 5));
  ((260688, 5), (244281, 5), (19, 5));
  ((26096, 4), (244274, 5), (19, 5));
  ((261233, 5), (244268, 5), (19, 5));
  ((261506, 5), (244261, 5), (19, 5));
  ((26178, 4), (244254, 5), (19, 5));
  ((262055, 5), (244247, 5), (19, 5));
  ((262329, 5), (24424, 4), (19, 5));
  ((262605, 5), (244233, 5), (19, 5));
  ((262881, 5), (244226, 5), (19, 5));
  ((263158, 5), (244219, 5), (19, 5));
  ((263435, 5), (244212, 5), (19, 5));
  ((263713, 5), (244205, 5), (19, 5));
  ((263992, 5), (244198, 5), (2, 4));
  ((264271, 5), (244191, 5), (2, 4));
  ((26455, 4), (244184, 5), (2, 4));
  ((264831, 5), (244177, 5), (2, 4));
  ((265111, 5), (244169, 5), (2, 4));
  ((265393, 5), (244162, 5), (2, 4));
  ((265675, 5), (244155, 5), (2, 4));
  ((265957, 5), (244148, 5), (2, 4));
  ((266241, 5), (244141, 5), (2, 4));
  ((266525, 5), (244133, 5), (2, 4));
  ((266809, 5), (244126, 5), (2, 4));
  ((267094, 5), (244119, 5), (2, 4));
  ((26738, 4), (244111, 5), (21, 5));
  ((267666, 5), (244104, 5), (21, 5));
  ((267953, 5), (244096, 5), (21, 5));
  ((26824, 4), (244089, 5), (21, 5));
  ((268528, 5), (244081, 5), (21, 5));
  ((268817, 5), (244074, 5), (21, 5));
  ((269107, 5), (244066, 5), (21, 5));
  ((269397, 5), (244059, 5), (21, 5));
  ((269687, 5), (244051, 5), (21, 5));
  ((269978, 5), (244044, 5), (21, 5));
  ((27027, 4), (244036, 5), (21, 5));
  ((270563, 5), (244028, 5), (21, 5));
  ((270856, 5), (244021, 5), (22, 5));
  ((27115, 4), (244013, 5), (22, 5));
  ((271444, 5), (244005, 5), (22, 5));
  ((271739, 5), (243997, 5), (22, 5));
  ((272035, 5), (24399, 4), (22, 5));
  ((272331, 5), (243982, 5), (22, 5));
  ((272628, 5), (243974, 5), (22, 5));
  ((272926, 5), (243966, 5), (22, 5));
  ((273224, 5), (243958, 5), (22, 5));
  ((273523, 5), (24395, 4), (22, 5));
  ((273823, 5), (243942, 5), (22, 5));
  ((274123, 5), (243934, 5), (23, 5));
  ((274424, 5), (243926, 5), (23, 5));
  ((274725, 5), (243918, 5), (23, 5));
  ((275028, 5), (24391, 4), (23, 5));
  ((27533, 4), (243902, 5), (23, 5));
  ((275634, 5), (243894, 5), (23, 5));
  ((275938, 5), (243885, 5), (23, 5));
  ((276243, 5), (243877, 5), (23, 5));
  ((276549, 5), (243869, 5), (23, 5));
  ((276855, 5), (243861, 5), (23, 5));
  ((277162, 5), (243852, 5), (24, 5));
  ((277469, 5), (243844, 5), (24, 5));
  ((277778, 5), (243836, 5), (24, 5));
  ((278087, 5), (243827, 5), (24, 5));
  ((278396, 5), (243819, 5), (24, 5));
  ((278707, 5), (24381, 4), (24, 5));
  ((279018, 5), (243802, 5), (24, 5));
  ((27933, 4), (243793, 5), (24, 5));
  ((279642, 5), (243785, 5), (24, 5));
  ((279955, 5), (243776, 5), (24, 5));
  ((280269, 5), (243768, 5), (25, 5));
  ((280584, 5), (243759, 5), (25, 5));
  ((280899, 5), (24375, 4), (25, 5));
  ((281215, 5), (243742, 5), (25, 5));
  ((281532, 5), (243733, 5), (25, 5));
  ((281849, 5), (243724, 5), (25, 5));
  ((282167, 5), (243715, 5), (25, 5));
  ((282486, 5), (243706, 5), (25, 5));
  ((282805, 5), (243697, 5), (25, 5));
  ((283126, 5), (243688, 5), (26, 5));
  ((283447, 5), (24368, 4), (26, 5));
  ((283768, 5), (243671, 5), (26, 5));
  ((284091, 5), (243662, 5), (26, 5));
  ((284414, 5), (243652, 5), (26, 5));
  ((284738, 5), (243643, 5), (26, 5));
  ((285063, 5), (243634, 5), (26, 5));
  ((285388, 5), (243625, 5), (26, 5));
  ((285714, 5), (243616, 5), (26, 5));
  ((286041, 5), (243607, 5), (27, 5));
  ((286369, 5), (243597, 5), (27, 5));
  ((286697, 5), (243588, 5), (27, 5));
  ((287026, 5), (243579, 5), (27, 5));
  ((287356, 5), (243569, 5), (27, 5));
  ((287687, 5), (24356, 4), (27, 5));
  ((288018, 5), (24355, 4), (27, 5));
  ((288351, 5), (243541, 5), (27, 5));
  ((288684, 5), (243531, 5), (28, 5));
  ((289017, 5), (243522, 5), (28, 5));
  ((289352, 5), (243512, 5), (28, 5));
  ((289687, 5), (243503, 5), (28, 5));
  ((290023, 5), (243493, 5), (28, 5));
  ((29036, 4), (243483, 5), (28, 5));
  ((290698, 5), (243473, 5), (28, 5));
  ((291036, 5), (243464, 5), (28, 5));
  ((291375, 5), (243454, 5), (29, 5));
  ((291715, 5), (243444, 5), (29, 5));
  ((292056, 5), (243434, 5), (29, 5));
  ((292398, 5), (243424, 5), (29, 5));
  ((29274, 4), (243414, 5), (29, 5));
  ((293083, 5), (243404, 5), (29, 5));
  ((293427, 5), (243394, 5), (29, 5));
  ((293772, 5), (243384, 5), (29, 5));
  ((294118, 5), (243374, 5), (3, 4));
  ((294464, 5), (243364, 5), (3, 4));
  ((294811, 5), (243353, 5), (3, 4));
  ((295159, 5), (243343, 5), (3, 4));
  ((295508, 5), (243333, 5), (3, 4));
  ((295858, 5), (243322, 5), (3, 4));
  ((296209, 5), (243312, 5), (3, 4));
  ((29656, 4), (243302, 5), (31, 5));
  ((296912, 5), (243291, 5), (31, 5));
  ((297265, 5), (243281, 5), (31, 5));
  ((297619, 5), (24327, 4), (31, 5));
  ((297974, 5), (243259, 5), (31, 5));
  ((298329, 5), (243249, 5), (31, 5));
  ((298686, 5), (243238, 5), (31, 5));
  ((299043, 5), (243227, 5), (32, 5));
  ((299401, 5), (243217, 5), (32, 5));
  ((29976, 4), (243206, 5), (32, 5));
  ((30012, 4), (243195, 5), (32, 5));
  ((300481, 5), (243184, 5), (32, 5));
  ((300842, 5), (243173, 5), (32, 5));
  ((301205, 5), (243162, 5), (32, 5));
  ((301568, 5), (243151, 5), (33, 5));
  ((301932, 5), (24314, 4), (33, 5));
  ((302297, 5), (243129, 5), (33, 5));
  ((302663, 5), (243118, 5), (33, 5));
  ((30303, 4), (243106, 5), (33, 5));
  ((303398, 5), (243095, 5), (33, 5));
  ((303767, 5), (243084, 5), (33, 5));
  ((304136, 5), (243072, 5), (34, 5));
  ((304507, 5), (243061, 5), (34, 5));
  ((304878, 5), (243049, 5), (34, 5));
  ((30525, 4), (243038, 5), (34, 5));
  ((305623, 5), (243026, 5), (34, 5));
  ((305998, 5), (243015, 5), (34, 5));
  ((306373, 5), (243003, 5), (35, 5));
  ((306748, 5), (242991, 5), (35, 5));
  ((307125, 5), (24298, 4), (35, 5));
  ((307503, 5), (242968, 5), (35, 5));
  ((307882, 5), (242956, 5), (35, 5));
  ((308261, 5), (242944, 5), (35, 5));
  ((308642, 5), (242932, 5), (36, 5));
  ((309023, 5), (24292, 4), (36, 5));
  ((309406, 5), (242908, 5), (36, 5));
  ((309789, 5), (242896, 5), (36, 5));
  ((310174, 5), (242884, 5), (36, 5));
  ((310559, 5), (242871, 5), (36, 5));
  ((310945, 5), (242859, 5), (37, 5));
  ((311333, 5), (242847, 5), (37, 5));
  ((311721, 5), (242834, 5), (37, 5));
  ((31211, 4), (242822, 5), (37, 5));
  ((3125, 3), (24281, 4), (37, 5));
  ((312891, 5), (242797, 5), (38, 5));
  ((313283, 5), (242784, 5), (38, 5));
  ((313676, 5), (242772, 5), (38, 5));
  ((31407, 4), (242759, 5), (38, 5));
  ((314465, 5), (242746, 5), (38, 5));
  ((314861, 5), (242733, 5), (39, 5));
  ((315259, 5), (242721, 5), (39, 5));
  ((315657, 5), (242708, 5), (39, 5));
  ((316056, 5), (242695, 5), (39, 5));
  ((316456, 5), (242682, 5), (39, 5));
  ((316857, 5), (242668, 5), (39, 5));
  ((317259, 5), (242655, 5), (4, 4));
  ((317662, 5), (242642, 5), (4, 4));
  ((318066, 5), (242629, 5), (4, 4));
  ((318471, 5), (242615, 5), (4, 4));
  ((318878, 5), (242602, 5), (4, 4));
  ((319285, 5), (242589, 5), (41, 5));
  ((319693, 5), (242575, 5), (41, 5));
  ((320102, 5), (242562, 5), (41, 5));
  ((320513, 5), (242548, 5), (41, 5));
  ((320924, 5), (242534, 5), (42, 5));
  ((321337, 5), (24252, 4), (42, 5));
  ((32175, 4), (242507, 5), (42, 5));
  ((322165, 5), (242493, 5), (42, 5));
  ((322581, 5), (242479, 5), (42, 5));
  ((322997, 5), (242465, 5), (43, 5));
  ((323415, 5), (242451, 5), (43, 5));
  ((323834, 5), (242437, 5), (43, 5));
  ((324254, 5), (242422, 5), (43, 5));
  ((324675, 5), (242408, 5), (43, 5));
  ((325098, 5), (242394, 5), (44, 5));
  ((325521, 5), (242379, 5), (44, 5));
  ((325945, 5), (242365, 5), (44, 5));
  ((326371, 5), (24235, 4), (44, 5));
  ((326797, 5), (242336, 5), (45, 5));
  ((327225, 5), (242321, 5), (45, 5));
  ((327654, 5), (242306, 5), (45, 5));
  ((328084, 5), (242292, 5), (45, 5));
  ((328515, 5), (242277, 5), (46, 5));
  ((328947, 5), (242262, 5), (46, 5));
  ((329381, 5), (242247, 5), (46, 5));
  ((329815, 5), (242232, 5), (46, 5));
  ((330251, 5), (242217, 5), (47, 5));
  ((330688, 5), (242201, 5), (47, 5));
  ((331126, 5), (242186, 5), (47, 5));
  ((331565, 5), (242171, 5), (47, 5));
  ((332005, 5), (242155, 5), (48, 5));
  ((332447, 5), (24214, 4), (48, 5));
  ((332889, 5), (242124, 5), (48, 5));
  ((333333, 5), (242108, 5), (48, 5));
  ((333778, 5), (242093, 5), (49, 5));
  ((334225, 5), (242077, 5), (49, 5));
  ((334672, 5), (242061, 5), (49, 5));
  ((335121, 5), (242045, 5), (49, 5));
  ((33557, 4), (242029, 5), (5, 4));
  ((336022, 5), (242013, 5), (5, 4));
  ((336474, 5), (241997, 5), (5, 4));
  ((336927, 5), (241981, 5), (5, 4));
  ((337382, 5), (241964, 5), (51, 5));
  ((337838, 5), (241948, 5), (51, 5));
  ((338295, 5), (241931, 5), (51, 5));
  ((338753, 5), (241915, 5), (52, 5));
  ((339213, 5), (241898, 5), (52, 5));
  ((339674, 5), (241881, 5), (52, 5));
  ((340136, 5), (241865, 5), (52, 5));
  ((340599, 5), (241848, 5), (53, 5));
  ((341064, 5), (241831, 5), (53, 5));
  ((34153, 4), (241814, 5), (53, 5));
  ((341997, 5), (241796, 5), (54, 5));
  ((342466, 5), (241779, 5), (54, 5));
  ((342936, 5), (241762, 5), (54, 5));
  ((343407, 5), (241744, 5), (55, 5));
  ((343879, 5), (241727, 5), (55, 5));
  ((344353, 5), (241709, 5), (55, 5));
  ((344828, 5), (241692, 5), (55, 5));
  ((345304, 5), (241674, 5), (56, 5));
  ((345781, 5), (241656, 5), (56, 5));
  ((34626, 4), (241638, 5), (56, 5));
  ((346741, 5), (24162, 4), (57, 5));
  ((347222, 5), (241602, 5), (57, 5));
  ((347705, 5), (241584, 5), (57, 5));
  ((348189, 5), (241566, 5), (58, 5));
  ((348675, 5), (241547, 5), (58, 5));
  ((349162, 5), (241529, 5), (58, 5));
  ((34965, 4), (24151, 4), (59, 5));
  ((35014, 4), (241491, 5), (59, 5));
  ((350631, 5), (241473, 5), (59, 5));
  ((351124, 5), (241454, 5), (6, 4));
  ((351617, 5), (241435, 5), (6, 4));
  ((352113, 5), (241416, 5), (61, 5));
  ((352609, 5), (241397, 5), (61, 5));
  ((353107, 5), (241377, 5), (61, 5));
  ((353607, 5), (241358, 5), (62, 5));
  ((354108, 5), (241339, 5), (62, 5));
  ((35461, 4), (241319, 5), (62, 5));
  ((355114, 5), (241299, 5), (63, 5));
  ((355619, 5), (24128, 4), (63, 5));
  ((356125, 5), (24126, 4), (63, 5));
  ((356633, 5), (24124, 4), (64, 5));
  ((357143, 5), (24122, 4), (64, 5));
  ((357654, 5), (2412, 3), (65, 5));
  ((358166, 5), (241179, 5), (65, 5));
  ((35868, 4), (241159, 5), (65, 5));
  ((359195, 5), (241138, 5), (66, 5));
  ((359712, 5), (241118, 5), (66, 5));
  ((360231, 5), (241097, 5), (67, 5));
  ((36075, 4), (241076, 5), (67, 5));
  ((361272, 5), (241055, 5), (67, 5));
  ((361795, 5), (241034, 5), (68, 5));
  ((362319, 5), (241013, 5), (68, 5));
  ((362845, 5), (240992, 5), (69, 5));
  ((363372, 5), (240971, 5), (69, 5));
  ((363901, 5), (240949, 5), (7, 4));
  ((364431, 5), (240927, 5), (7, 4));
  ((364964, 5), (240906, 5), (71, 5));
  ((365497, 5), (240884, 5), (71, 5));
  ((366032, 5), (240862, 5), (71, 5));
  ((366569, 5), (24084, 4), (72, 5));
  ((367107, 5), (240818, 5), (72, 5));
  ((367647, 5), (240795, 5), (73, 5));
  ((368189, 5), (240773, 5), (73, 5));
  ((368732, 5), (24075, 4), (74, 5));
  ((369276, 5), (240728, 5), (74, 5));
  ((369822, 5), (240705, 5), (75, 5));
  ((37037, 4), (240682, 5), (75, 5));
  ((37092, 4), (240659, 5), (76, 5));
  ((371471, 5), (240636, 5), (76, 5));
  ((372024, 5), (240612, 5), (77, 5));
  ((372578, 5), (240589, 5), (77, 5));
  ((373134, 5), (240565, 5), (78, 5));
  ((373692, 5), (240542, 5), (78, 5));
  ((374251, 5), (240518, 5), (79, 5));
  ((374813, 5), (240494, 5), (79, 5));
  ((375375, 5), (24047, 4), (8, 4));
  ((37594, 4), (240445, 5), (8, 4));
  ((376506, 5), (240421, 5), (81, 5));
  ((377074, 5), (240396, 5), (81, 5));
  ((377644, 5), (240372, 5), (82, 5));
  ((378215, 5), (240347, 5), (83, 5));
  ((378788, 5), (240322, 5), (83, 5));
  ((379363, 5), (240297, 5), (84, 5));
  ((379939, 5), (240272, 5), (84, 5));
  ((380518, 5), (240246, 5), (85, 5));
  ((381098, 5), (240221, 5), (85, 5));
  ((381679, 5), (240195, 5), (86, 5));
  ((382263, 5), (240169, 5), (87, 5));
  ((382848, 5), (240143, 5), (87, 5));
  ((383436, 5), (240117, 5), (88, 5));
  ((384025, 5), (240091, 5), (89, 5));
  ((384615, 5), (240064, 5), (89, 5));
  ((385208, 5), (240038, 5), (9, 4));
  ((385802, 5), (240011, 5), (9, 4));
  ((386399, 5), (239984, 5), (91, 5));
  ((386997, 5), (239957, 5), (92, 5));
  ((387597, 5), (23993, 4), (92, 5));
  ((388199, 5), (239902, 5), (93, 5));
  ((388802, 5), (239875, 5), (94, 5));
  ((389408, 5), (239847, 5), (94, 5));
  ((390016, 5), (239819, 5), (95, 5));
  ((390625, 5), (239791, 5), (96, 5));
  ((391236, 5), (239763, 5), (97, 5));
  ((39185, 4), (239734, 5), (97, 5));
  ((392465, 5), (239706, 5), (98, 5));
  ((393082, 5), (239677, 5), (99, 5));
  ((393701, 5), (239648, 5), (1, 3));
  ((394322, 5), (239619, 5), (1, 3));
  ((394945, 5), (23959, 4), (101, 5));
  ((39557, 4), (23956, 4), (102, 5));
  ((396197, 5), (239531, 5), (103, 5));
  ((396825, 5), (239501, 5), (103, 5));
  ((397456, 5), (239471, 5), (104, 5));
  ((398089, 5), (239441, 5), (105, 5));
  ((398724, 5), (23941, 4), (106, 5));
  ((399361, 5), (23938, 4), (107, 5));
  ((4, 0), (239349, 5), (107, 5));
  ((400641, 5), (239318, 5), (108, 5));
  ((401284, 5), (239287, 5), (109, 5));
  ((401929, 5), (239256, 5), (11, 4));
  ((402576, 5), (239224, 5), (111, 5));
  ((403226, 5), (239192, 5), (112, 5));
  ((403877, 5), (23916, 4), (113, 5));
  ((404531, 5), (239128, 5), (114, 5));
  ((405186, 5), (239096, 5), (115, 5));
  ((405844, 5), (239063, 5), (115, 5));
  ((406504, 5), (23903, 4), (116, 5));
  ((407166, 5), (238997, 5), (117, 5));
  ((40783, 4), (238964, 5), (118, 5));
  ((408497, 5), (238931, 5), (119, 5));
  ((409165, 5), (238897, 5), (12, 4));
  ((409836, 5), (238863, 5), (121, 5));
  ((410509, 5), (238829, 5), (122, 5));
  ((411184, 5), (238795, 5), (123, 5));
  ((411862, 5), (23876, 4), (124, 5));
  ((412541, 5), (238726, 5), (126, 5));
  ((413223, 5), (238691, 5), (127, 5));
  ((413907, 5), (238655, 5), (128, 5));
  ((414594, 5), (23862, 4), (129, 5));
  ((415282, 5), (238584, 5), (13, 4));
  ((415973, 5), (238548, 5), (131, 5));
  ((416667, 5), (238512, 5), (132, 5));
  ((417362, 5), (238476, 5), (133, 5));
  ((41806, 4), (238439, 5), (135, 5));
  ((41876, 4), (238402, 5), (136, 5));
  ((419463, 5), (238365, 5), (137, 5));
  ((420168, 5), (238328, 5), (138, 5));
  ((420875, 5), (23829, 4), (14, 4));
  ((421585, 5), (238252, 5), (141, 5));
  ((422297, 5), (238214, 5), (142, 5));
  ((423012, 5), (238175, 5), (143, 5));
  ((423729, 5), (238137, 5), (145, 5));
  ((424448, 5), (238098, 5), (146, 5));
  ((42517, 4), (238058, 5), (147, 5));
  ((425894, 5), (238019, 5), (149, 5));
  ((426621, 5), (237979, 5), (15, 4));
  ((42735, 4), (237939, 5), (152, 5));
  ((428082, 5), (237898, 5), (153, 5));
  ((428816, 5), (237858, 5), (155, 5));
  ((429553, 5), (237817, 5), (156, 5));
  ((430293, 5), (237776, 5), (158, 5));
  ((431034, 5), (237734, 5), (159, 5));
  ((431779, 5), (237692, 5), (161, 5));
  ((432526, 5), (23765, 4), (162, 5));
  ((433276, 5), (237608, 5), (164, 5));
  ((434028, 5), (237565, 5), (166, 5));
  ((434783, 5), (237522, 5), (167, 5));
  ((43554, 4), (237478, 5), (169, 5));
  ((4363, 3), (237435, 5), (171, 5));
  ((437063, 5), (237391, 5), (172, 5));
  ((437828, 5), (237346, 5), (174, 5));
  ((438596, 5), (237302, 5), (176, 5));
  ((439367, 5), (237256, 5), (178, 5));
  ((440141, 5), (237211, 5), (18, 4));
  ((440917, 5), (237165, 5), (182, 5));
  ((441696, 5), (237119, 5), (183, 5));
  ((442478, 5), (237073, 5), (185, 5));
  ((443262, 5), (237026, 5), (187, 5));
  ((44405, 4), (236979, 5), (189, 5));
  ((44484, 4), (236932, 5), (192, 5));
  ((445633, 5), (236884, 5), (194, 5));
  ((446429, 5), (236836, 5), (196, 5));
  ((447227, 5), (236787, 5), (198, 5));
  ((448029, 5), (236738, 5), (2, 3));
  ((448833, 5), (236689, 5), (202, 5));
  ((44964, 4), (236639, 5), (205, 5));
  ((45045, 4), (236589, 5), (207, 5));
  ((451264, 5), (236539, 5), (209, 5));
  ((45208, 4), (236488, 5), (212, 5));
  ((452899, 5), (236436, 5), (214, 5));
  ((453721, 5), (236385, 5), (217, 5));
  ((454545, 5), (236333, 5), (219, 5));
  ((455373, 5), (23628, 4), (222, 5));
  ((456204, 5), (236227, 5), (225, 5));
  ((457038, 5), (236174, 5), (227, 5));
  ((457875, 5), (23612, 4), (23, 4));
  ((458716, 5), (236066, 5), (233, 5));
  ((459559, 5), (236011, 5), (236, 5));
  ((460405, 5), (235956, 5), (238, 5));
  ((461255, 5), (2359, 3), (241, 5));
  ((462107, 5), (235844, 5), (244, 5));
  ((462963, 5), (235788, 5), (248, 5));
  ((463822, 5), (235731, 5), (251, 5));
  ((464684, 5), (235673, 5), (254, 5));
  ((465549, 5), (235615, 5), (257, 5));
  ((466418, 5), (235557, 5), (26, 4));
  ((46729, 4), (235498, 5), (264, 5));
  ((468165, 5), (235439, 5), (267, 5));
  ((469043, 5), (235379, 5), (271, 5));
  ((469925, 5), (235318, 5), (274, 5));
  ((47081, 4), (235257, 5), (278, 5));
  ((471698, 5), (235196, 5), (282, 5));
  ((47259, 4), (235134, 5), (286, 5));
  ((473485, 5), (235071, 5), (29, 4));
  ((474383, 5), (235008, 5), (294, 5));
  ((475285, 5), (234945, 5), (298, 5));
  ((47619, 4), (23488, 4), (302, 5));
  ((477099, 5), (234816, 5), (306, 5));
  ((478011, 5), (23475, 4), (311, 5));
  ((478927, 5), (234684, 5), (315, 5));
  ((479846, 5), (234618, 5), (32, 4));
  ((480769, 5), (234551, 5), (324, 5));
  ((481696, 5), (234483, 5), (329, 5));
  ((482625, 5), (234415, 5), (334, 5));
  ((483559, 5), (234346, 5), (339, 5));
  ((484496, 5), (234276, 5), (344, 5));
  ((485437, 5), (234206, 5), (349, 5));
  ((486381, 5), (234135, 5), (355, 5));
  ((487329, 5), (234064, 5), (36, 4));
  ((488281, 5), (233991, 5), (366, 5));
  ((489237, 5), (233919, 5), (372, 5));
  ((490196, 5), (233845, 5), (377, 5));
  ((491159, 5), (233771, 5), (383, 5));
  ((492126, 5), (233696, 5), (39, 4));
  ((493097, 5), (23362, 4), (396, 5));
  ((494071, 5), (233544, 5), (402, 5));
  ((49505, 4), (233467, 5), (409, 5));
  ((496032, 5), (233389, 5), (416, 5));
  ((497018, 5), (23331, 4), (423, 5));
  ((498008, 5), (233231, 5), (43, 4));
  ((499002, 5), (233151, 5), (437, 5));
  ((5, 0), (23307, 4), (445, 5));
  ((501002, 5), (232988, 5), (452, 5));
  ((502008, 5), (232906, 5), (46, 4));
  ((503018, 5), (232822, 5), (469, 5));
  ((504032, 5), (232738, 5), (477, 5));
  ((505051, 5), (232653, 5), (485, 5));
  ((506073, 5), (232567, 5), (494, 5));
  ((507099, 5), (232481, 5), (503, 5));
  ((50813, 4), (232393, 5), (512, 5));
  ((509165, 5), (232305, 5), (522, 5));
  ((510204, 5), (232215, 5), (532, 5));
  ((511247, 5), (232125, 5), (542, 5));
  ((512295, 5), (232034, 5), (552, 5));
  ((513347, 5), (231942, 5), (563, 5));
  ((514403, 5), (231849, 5), (574, 5));
  ((515464, 5), (231755, 5), (585, 5));
  ((516529, 5), (23166, 4), (596, 5));
  ((517598, 5), (231564, 5), (608, 5));
  ((518672, 5), (231466, 5), (62, 4));
  ((519751, 5), (231368, 5), (633, 5));
  ((520833, 5), (231269, 5), (646, 5));
  ((521921, 5), (231169, 5), (659, 5));
  ((523013, 5), (231068, 5), (673, 5));
  ((524109, 5), (230966, 5), (687, 5));
  ((52521, 4), (230862, 5), (701, 5));
  ((526316, 5), (230758, 5), (716, 5));
  ((527426, 5), (230652, 5), (732, 5));
  ((528541, 5), (230546, 5), (748, 5));
  ((529661, 5), (230438, 5), (764, 5));
  ((530786, 5), (230329, 5), (781, 5));
  ((531915, 5), (230219, 5), (798, 5));
  ((533049, 5), (230107, 5), (816, 5));
  ((534188, 5), (229995, 5), (834, 5));
  ((535332, 5), (229881, 5), (853, 5));
  ((536481, 5), (229766, 5), (873, 5));
  ((537634, 5), (22965, 4), (893, 5));
  ((538793, 5), (229532, 5), (914, 5));
  ((539957, 5), (229413, 5), (935, 5));
  ((541126, 5), (229293, 5), (958, 5));
  ((542299, 5), (229171, 5), (98, 4));
  ((543478, 5), (229049, 5), (1004, 5));
  ((544662, 5), (228924, 5), (1028, 5));
  ((545852, 5), (228799, 5), (1054, 5));
  ((547046, 5), (228672, 5), (1079, 5));
  ((548246, 5), (228544, 5), (1106, 5));
  ((549451, 5), (228414, 5), (1134, 5));
  ((550661, 5), (228283, 5), (1162, 5));
  ((551876, 5), (228151, 5), (1192, 5));
  ((553097, 5), (228017, 5), (1222, 5));
  ((554324, 5), (227881, 5), (1254, 5));
  ((555556, 5), (227745, 5), (1286, 5));
  ((556793, 5), (227606, 5), (132, 4));
  ((558036, 5), (227467, 5), (1354, 5));
  ((559284, 5), (227325, 5), (139, 4));
  ((560538, 5), (227183, 5), (1427, 5));
  ((561798, 5), (227038, 5), (1465, 5));
  ((563063, 5), (226893, 5), (1504, 5));
  ((564334, 5), (226746, 5), (1545, 5));
  ((565611, 5), (226597, 5), (1587, 5));
  ((566893, 5), (226447, 5), (1631, 5));
  ((568182, 5), (226295, 5), (1675, 5));
  ((569476, 5), (226142, 5), (1722, 5));
  ((570776, 5), (225987, 5), (1769, 5));
  ((572082, 5), (225831, 5), (1819, 5));
  ((573394, 5), (225673, 5), (187, 4));
  ((574713, 5), (225514, 5), (1922, 5));
  ((576037, 5), (225354, 5), (1976, 5));
  ((577367, 5), (225191, 5), (2032, 5));
  ((578704, 5), (225028, 5), (209, 4));
  ((580046, 5), (224863, 5), (215, 4));
  ((581395, 5), (224697, 5), (2211, 5));
  ((582751, 5), (224529, 5), (2275, 5));
  ((584112, 5), (22436, 4), (234, 4));
  ((58548, 4), (22419, 4), (2407, 5));
  ((586854, 5), (224018, 5), (2477, 5));
  ((588235, 5), (223845, 5), (2549, 5));
  ((589623, 5), (223671, 5), (2622, 5));
  ((591017, 5), (223495, 5), (2698, 5));
  ((592417, 5), (223318, 5), (2776, 5));
  ((593824, 5), (223141, 5), (2857, 5));
  ((595238, 5), (222962, 5), (2939, 5));
  ((596659, 5), (222782, 5), (3024, 5));
  ((598086, 5), (222601, 5), (3112, 5));
  ((59952, 4), (222419, 5), (3202, 5));
  ((600962, 5), (222236, 5), (3294, 5));
  ((60241, 4), (222053, 5), (3389, 5));
  ((603865, 5), (221868, 5), (3486, 5));
  ((605327, 5), (221683, 5), (3585, 5));
  ((606796, 5), (221497, 5), (3687, 5));
  ((608273, 5), (22131, 4), (3792, 5));
  ((609756, 5), (221123, 5), (3899, 5));
  ((611247, 5), (220936, 5), (4009, 5));
  ((612745, 5), (220747, 5), (4121, 5));
  ((614251, 5), (220559, 5), (4236, 5));
  ((615764, 5), (22037, 4), (4353, 5));
  ((617284, 5), (22018, 4), (4473, 5));
  ((618812, 5), (219991, 5), (4595, 5));
  ((620347, 5), (219801, 5), (4719, 5));
  ((621891, 5), (219611, 5), (4846, 5));
  ((623441, 5), (21942, 4), (4976, 5));
  ((625, 2), (21923, 4), (5108, 5));
  ((626566, 5), (219039, 5), (5242, 5));
  ((628141, 5), (218849, 5), (5378, 5));
  ((629723, 5), (218658, 5), (5517, 5));
  ((631313, 5), (218467, 5), (5658, 5));
  ((632911, 5), (218277, 5), (5801, 5));
  ((634518, 5), (218086, 5), (5946, 5));
  ((636132, 5), (217895, 5), (6093, 5));
  ((637755, 5), (217704, 5), (6243, 5));
  ((639386, 5), (217513, 5), (6394, 5));
  ((641026, 5), (217322, 5), (6548, 5));
  ((642674, 5), (217131, 5), (6703, 5));
  ((64433, 4), (21694, 4), (686, 4));
  ((645995, 5), (216749, 5), (702, 4));
  ((647668, 5), (216558, 5), (7181, 5));
  ((649351, 5), (216366, 5), (7344, 5));
  ((651042, 5), (216174, 5), (7509, 5));
  ((652742, 5), (215982, 5), (7676, 5));
  ((65445, 4), (21579, 4), (7844, 5));
  ((656168, 5), (215597, 5), (8015, 5));
  ((657895, 5), (215404, 5), (8187, 5));
  ((659631, 5), (215211, 5), (8361, 5));
  ((661376, 5), (215017, 5), (8538, 5));
  ((66313, 4), (214823, 5), (8716, 5));
  ((664894, 5), (214628, 5), (8896, 5));
  ((666667, 5), (214433, 5), (9078, 5));
  ((668449, 5), (214237, 5), (9262, 5));
  ((670241, 5), (21404, 4), (9449, 5));
  ((672043, 5), (213843, 5), (9637, 5));
  ((673854, 5), (213646, 5), (9828, 5));
  ((675676, 5), (213448, 5), (10021, 5));
  ((677507, 5), (213249, 5), (10216, 5));
  ((679348, 5), (21305, 4), (10413, 5));
  ((681199, 5), (21285, 4), (10613, 5));
  ((68306, 4), (21265, 4), (10815, 5));
  ((684932, 5), (212449, 5), (1102, 4));
  ((686813, 5), (212248, 5), (11227, 5));
  ((688705, 5), (212047, 5), (11437, 5));
  ((690608, 5), (211845, 5), (11649, 5));
  ((692521, 5), (211644, 5), (11863, 5));
  ((694444, 5), (211442, 5), (1208, 4));
  ((696379, 5), (21124, 4), (123, 3));
  ((698324, 5), (211038, 5), (12522, 5));
  ((70028, 4), (210836, 5), (12746, 5));
  ((702247, 5), (210634, 5), (12972, 5));
  ((704225, 5), (210433, 5), (13201, 5));
  ((706215, 5), (210231, 5), (13432, 5));
  ((708215, 5), (21003, 4), (13665, 5));
  ((710227, 5), (20983, 4), (13899, 5));
  ((712251, 5), (209629, 5), (14135, 5));
  ((714286, 5), (209429, 5), (14373, 5));
  ((716332, 5), (209229, 5), (14613, 5));
  ((718391, 5), (20903, 4), (14853, 5));
  ((720461, 5), (20883, 4), (15095, 5));
  ((722543, 5), (208631, 5), (15337, 5));
  ((724638, 5), (208432, 5), (1558, 4));
  ((726744, 5), (208233, 5), (15824, 5));
  ((728863, 5), (208033, 5), (16068, 5));
  ((730994, 5), (207833, 5), (16312, 5));
  ((733138, 5), (207632, 5), (16556, 5));
  ((735294, 5), (20743, 4), (168, 3));
  ((737463, 5), (207227, 5), (17043, 5));
  ((739645, 5), (207023, 5), (17286, 5));
  ((74184, 4), (206816, 5), (17529, 5));
  ((744048, 5), (206608, 5), (1777, 4));
  ((746269, 5), (206397, 5), (18011, 5));
  ((748503, 5), (206184, 5), (18251, 5));
  ((750751, 5), (205967, 5), (18491, 5));
  ((753012, 5), (205746, 5), (18729, 5));
  ((755287, 5), (205521, 5), (18967, 5));
  ((757576, 5), (205292, 5), (19203, 5));
  ((759878, 5), (205058, 5), (1944, 4));
  ((762195, 5), (204819, 5), (19676, 5));
  ((764526, 5), (204574, 5), (19911, 5));
  ((766871, 5), (204323, 5), (20146, 5));
  ((769231, 5), (204065, 5), (20381, 5));
  ((771605, 5), (203801, 5), (20617, 5));
  ((773994, 5), (203529, 5), (20853, 5));
  ((776398, 5), (203249, 5), (2109, 4));
  ((778816, 5), (202961, 5), (21327, 5));
  ((78125, 4), (202665, 5), (21566, 5));
  ((783699, 5), (20236, 4), (21807, 5));
  ((786164, 5), (202046, 5), (22049, 5));
  ((788644, 5), (201722, 5), (22294, 5));
  ((791139, 5), (201389, 5), (22541, 5));
  ((793651, 5), (201045, 5), (22791, 5));
  ((796178, 5), (200691, 5), (23044, 5));
  ((798722, 5), (200326, 5), (233, 3));
  ((801282, 5), (199949, 5), (2356, 4));
  ((803859, 5), (199561, 5), (23824, 5));
  ((806452, 5), (199161, 5), (24092, 5));
  ((809061, 5), (198748, 5), (24365, 5));
  ((811688, 5), (198322, 5), (24642, 5));
  ((814332, 5), (197882, 5), (24924, 5));
  ((816993, 5), (197427, 5), (25212, 5));
  ((819672, 5), (196958, 5), (25505, 5));
  ((822368, 5), (196473, 5), (25805, 5));
  ((825083, 5), (195971, 5), (26111, 5));
  ((827815, 5), (195451, 5), (26424, 5));
  ((830565, 5), (194912, 5), (26744, 5));
  ((833333, 5), (194354, 5), (27073, 5));
  ((83612, 4), (193774, 5), (27412, 5));
  ((838926, 5), (193172, 5), (2776, 4));
  ((841751, 5), (192547, 5), (2812, 4));
  ((844595, 5), (191896, 5), (28492, 5));
  ((847458, 5), (191219, 5), (28879, 5));
  ((85034, 4), (190514, 5), (29281, 5));
  ((853242, 5), (18978, 4), (29702, 5));
  ((856164, 5), (189016, 5), (30142, 5));
  ((859107, 5), (188219, 5), (30605, 5));
  ((862069, 5), (18739, 4), (31093, 5));
  ((865052, 5), (186525, 5), (31608, 5));
  ((868056, 5), (185626, 5), (32156, 5));
  ((87108, 4), (18469, 4), (32737, 5));
  ((874126, 5), (183716, 5), (33358, 5));
  ((877193, 5), (182705, 5), (34021, 5));
  ((880282, 5), (181655, 5), (34731, 5));
  ((883392, 5), (180567, 5), (35493, 5));
  ((886525, 5), (179441, 5), (36312, 5));
  ((88968, 4), (178276, 5), (37193, 5));
  ((892857, 5), (177075, 5), (38143, 5));
  ((896057, 5), (175839, 5), (39168, 5));
  ((899281, 5), (174569, 5), (40274, 5));
  ((902527, 5), (17327, 4), (41468, 5));
  ((905797, 5), (171943, 5), (42758, 5));
  ((909091, 5), (170594, 5), (44152, 5));
  ((912409, 5), (169229, 5), (45656, 5));
  ((915751, 5), (167854, 5), (4728, 4));
  ((919118, 5), (166479, 5), (49029, 5));
  ((922509, 5), (165112, 5), (50913, 5));
  ((925926, 5), (163766, 5), (52936, 5));
  ((929368, 5), (162453, 5), (55105, 5));
  ((932836, 5), (161188, 5), (57424, 5));
  ((93633, 4), (159987, 5), (59895, 5));
  ((93985, 4), (158868, 5), (62517, 5));
  ((943396, 5), (157849, 5), (6529, 4));
  ((94697, 4), (156947, 5), (68206, 5));
  ((95057, 4), (156183, 5), (71258, 5));
  ((954198, 5), (155572, 5), (74433, 5));
  ((957854, 5), (15513, 4), (77717, 5));
  ((961538, 5), (154871, 5), (81092, 5));
  ((965251, 5), (154803, 5), (84537, 5));
  ((968992, 5), (154934, 5), (88033, 5));
  ((972763, 5), (155267, 5), (91556, 5));
  ((976563, 5), (155799, 5), (95085, 5));
  ((980392, 5), (156525, 5), (986, 3));
  ((984252, 5), (157438, 5), (102082, 5));
  ((988142, 5), (158525, 5), (105515, 5));
  ((992063, 5), (159774, 5), (108885, 5));
  ((996016, 5), (16117, 4), (112184, 5));
  ((10, 0), (162698, 5), (115405, 5));
  ((1004016, 5), (164343, 5), (118546, 5));
  ((1008065, 5), (166091, 5), (121607, 5));
  ((1012146, 5), (167931, 5), (124592, 5));
  ((101626, 4), (169853, 5), (127506, 5));
  ((1020408, 5), (17185, 4), (130357, 5));
  ((102459, 4), (173918, 5), (133154, 5));
  ((1028807, 5), (176058, 5), (135904, 5));
  ((1033058, 5), (178272, 5), (138615, 5));
  ((1037344, 5), (180566, 5), (141293, 5));
  ((1041667, 5), (182949, 5), (143942, 5));
  ((1046025, 5), (185429, 5), (146563, 5));
  ((105042, 4), (188019, 5), (149152, 5));
  ((1054852, 5), (19073, 4), (151704, 5));
  ((1059322, 5), (193573, 5), (154208, 5));
  ((106383, 4), (196556, 5), (156651, 5));
  ((1068376, 5), (199684, 5), (159014, 5));
  ((1072961, 5), (20296, 4), (161279, 5));
  ((1077586, 5), (206381, 5), (163423, 5));
  ((1082251, 5), (209938, 5), (165427, 5));
  ((1086957, 5), (213619, 5), (16727, 4));
  ((1091703, 5), (217407, 5), (168934, 5));
  ((1096491, 5), (221278, 5), (170406, 5));
  ((1101322, 5), (225209, 5), (171678, 5));
  ((1106195, 5), (229173, 5), (172747, 5));
  ((1111111, 5), (233144, 5), (173617, 5));
  ((1116071, 5), (237097, 5), (174297, 5));
  ((1121076, 5), (241012, 5), (174803, 5));
  ((1126126, 5), (244871, 5), (175152, 5));
  ((1131222, 5), (248665, 5), (175369, 5));
  ((1136364, 5), (25239, 4), (175474, 5));
  ((1141553, 5), (256046, 5), (175493, 5));
  ((1146789, 5), (259644, 5), (175446, 5));
  ((1152074, 5), (263198, 5), (17535, 4));
  ((1157407, 5), (266729, 5), (175215, 5));
  ((1162791, 5), (270261, 5), (175047, 5));
  ((1168224, 5), (273817, 5), (174838, 5));
  ((1173709, 5), (277423, 5), (174574, 5));
  ((1179245, 5), (281094, 5), (174228, 5));
  ((1184834, 5), (284838, 5), (173768, 5));
  ((1190476, 5), (28865, 4), (173153, 5));
  ((1196172, 5), (292505, 5), (172348, 5));
  ((1201923, 5), (296365, 5), (171324, 5));
  ((1207729, 5), (300181, 5), (170071, 5));
  ((1213592, 5), (303902, 5), (168596, 5));
  ((1219512, 5), (307481, 5), (16693, 4));
  ((122549, 4), (31089, 4), (165114, 5));
  ((1231527, 5), (314118, 5), (163198, 5));
  ((1237624, 5), (317172, 5), (161228, 5));
  ((1243781, 5), (320077, 5), (159239, 5));
  ((125, 1), (322861, 5), (157254, 5));
  ((1256281, 5), (325559, 5), (155282, 5));
  ((1262626, 5), (3282, 3), (153319, 5));
  ((1269036, 5), (330807, 5), (151353, 5));
  ((127551, 4), (333397, 5), (149365, 5));
  ((1282051, 5), (335978, 5), (147334, 5));
  ((128866, 4), (338549, 5), (145239, 5));
  ((1295337, 5), (341104, 5), (14306, 4));
  ((1302083, 5), (34363, 4), (140781, 5));
  ((1308901, 5), (346109, 5), (13839, 4));
  ((1315789, 5), (348521, 5), (135881, 5));
  ((1322751, 5), (350845, 5), (133254, 5));
  ((1329787, 5), (353059, 5), (130513, 5));
  ((1336898, 5), (355143, 5), (127671, 5));
  ((1344086, 5), (357081, 5), (124742, 5));
  ((1351351, 5), (358862, 5), (121746, 5));
  ((1358696, 5), (360476, 5), (118704, 5));
  ((136612, 4), (361924, 5), (115637, 5));
  ((1373626, 5), (363206, 5), (112568, 5));
  ((1381215, 5), (364331, 5), (109516, 5));
  ((1388889, 5), (365309, 5), (106498, 5));
  ((1396648, 5), (366155, 5), (103527, 5));
  ((1404494, 5), (366883, 5), (100613, 5));
  ((1412429, 5), (367509, 5), (9776, 4));
  ((1420455, 5), (368049, 5), (94972, 5));
  ((1428571, 5), (368517, 5), (92245, 5))].

(** nidn/materials/data/tantalum_pentoxide.csv, lines 2-429 *)
Definition tantalum_pentoxide : list line :=
 [((294938, 7), (887314, 6), (187, 3));
  ((300495, 7), (883526, 6), (188, 3));
  ((306157, 7), (877279, 6), (191, 3));
  ((311925, 7), (870667, 6), (199, 3));
  ((317802, 7), (865582, 6), (209, 3));
  ((32379, 6), (862174, 6), (22, 2));
  ((32989, 6), (860291, 6), (231, 3));
  ((336106, 7), (859091, 6), (241, 3));
  ((342439, 7), (858507, 6), (252, 3));
  ((348891, 7), (858497, 6), (262, 3));
  ((355464, 7), (859036, 6), (273, 3));
  ((362162, 7), (860235, 6), (283, 3));
  ((368985, 7), (861649, 6), (293, 3));
  ((375937, 7), (863507, 6), (303, 3));
  ((383021, 7), (865407, 6), (312, 3));
  ((390237, 7), (867515, 6), (322, 3));
  ((39759, 6), (870103, 6), (331, 3));
  ((405081, 7), (872251, 6), (339, 3));
  ((412713, 7), (874093, 6), (348, 3));
  ((420489, 7), (876263, 6), (357, 3));
  ((428412, 7), (878275, 6), (365, 3));
  ((436483, 7), (87964, 5), (373, 3));
  ((444707, 7), (880129, 6), (381, 3));
  ((453086, 7), (880275, 6), (391, 3));
  ((461623, 7), (881184, 6), (402, 3));
  ((470321, 7), (882563, 6), (412, 3));
  ((479182, 7), (883251, 6), (421, 3));
  ((48821, 6), (881493, 6), (429, 3));
  ((497409, 7), (878349, 6), (443, 3));
  ((506781, 7), (877114, 6), (461, 3));
  ((516329, 7), (878412, 6), (48, 2));
  ((526057, 7), (882654, 6), (501001, 6));
  ((535969, 7), (891949, 6), (522999, 6));
  ((546067, 7), (903256, 6), (535, 3));
  ((556356, 7), (9099, 4), (542, 3));
  ((566838, 7), (914526, 6), (558, 3));
  ((577518, 7), (92129, 5), (574, 3));
  ((5884, 5), (929812, 6), (591, 3));
  ((599486, 7), (941993, 6), (609, 3));
  ((610781, 7), (954689, 6), (617, 3));
  ((622289, 7), (96276, 5), (623, 3));
  ((634014, 7), (967331, 6), (633, 3));
  ((645959, 7), (972348, 6), (649001, 6));
  ((65813, 6), (979227, 6), (665, 3));
  ((67053, 6), (988735, 6), (684001, 6));
  ((683163, 7), (99924, 5), (697, 3));
  ((696035, 7), (1008544, 6), (712, 3));
  ((709149, 7), (101816, 5), (728, 3));
  ((722511, 7), (1026595, 6), (743, 3));
  ((736124, 7), (1038517, 6), (770001, 6));
  ((749993, 7), (1058245, 6), (792, 3));
  ((764124, 7), (1078446, 6), (802, 3));
  ((778521, 7), (109483, 5), (811, 3));
  ((793189, 7), (1107957, 6), (819, 3));
  ((808134, 7), (1113578, 6), (824, 3));
  ((82336, 6), (1118704, 6), (853, 3));
  ((838874, 7), (1135462, 6), (886998, 6));
  ((854679, 7), (1159903, 6), (910999, 6));
  ((870782, 7), (1182587, 6), (926001, 6));
  ((887189, 7), (1209856, 6), (956, 3));
  ((903905, 7), (1222391, 6), (943001, 6));
  ((920935, 7), (1255146, 6), (104, 2));
  ((938287, 7), (132313, 5), (104, 2));
  ((955966, 7), (1355658, 6), (1000001, 6));
  ((973977, 7), (1381876, 6), (1039997, 6));
  ((992328, 7), (1423695, 6), (104, 2));
  ((101102, 6), (1462605, 6), (105, 2));
  ((103007, 6), (1516706, 6), (1069999, 6));
  ((104948, 6), (1572582, 6), (1040002, 6));
  ((106926, 6), (1611368, 6), (101, 2));
  ((10894, 5), (1640192, 6), (982642, 6));
  ((110993, 6), (1666027, 6), (96411, 5));
  ((113084, 6), (1689775, 6), (9383, 4));
  ((115215, 6), (1705699, 6), (911129, 6));
  ((117385, 6), (1719929, 6), (898454, 6));
  ((119597, 6), (173764, 5), (880978, 6));
  ((12185, 5), (1741873, 6), (842602, 6));
  ((124146, 6), (1745046, 6), (853835, 6));
  ((126485, 6), (1760641, 6), (844727, 6));
  ((128869, 6), (177691, 5), (836531, 6));
  ((131297, 6), (1791499, 6), (817832, 6));
  ((13377, 5), (180194, 5), (801912, 6));
  ((136291, 6), (1808534, 6), (782211, 6));
  ((138859, 6), (1809249, 6), (765015, 6));
  ((141475, 6), (180675, 5), (755215, 6));
  ((144141, 6), (1803693, 6), (750299, 6));
  ((146856, 6), (1802791, 6), (752538, 6));
  ((149623, 6), (1803949, 6), (753066, 6));
  ((152442, 6), (1807081, 6), (758887, 6));
  ((155315, 6), (181343, 5), (762572, 6));
  ((158241, 6), (1816681, 6), (758419, 6));
  ((161222, 6), (1815331, 6), (763733, 6));
  ((16426, 5), (1819607, 6), (783252, 6));
  ((167355, 6), (182787, 5), (790552, 6));
  ((170508, 6), (1833097, 6), (802448, 6));
  ((173721, 6), (184264, 5), (827663, 6));
  ((176994, 6), (1859949, 6), (850703, 6));
  ((180329, 6), (1886402, 6), (877517, 6));
  ((183726, 6), (1907338, 6), (873986, 6));
  ((187188, 6), (1927943, 6), (913957, 6));
  ((190715, 6), (197103, 5), (950735, 6));
  ((194308, 6), (2018102, 6), (954682, 6));
  ((197969, 6), (2065739, 6), (976125, 6));
  ((201699, 6), (2124363, 6), (98747, 5));
  ((205499, 6), (2187821, 6), (98585, 5));
  ((209371, 6), (2252461, 6), (97423, 5));
  ((213316, 6), (2317765, 6), (954646, 6));
  ((217335, 6), (2383453, 6), (925142, 6));
  ((22143, 5), (2448583, 6), (884836, 6));
  ((225602, 6), (2510247, 6), (828696, 6));
  ((229853, 6), (2559918, 6), (752588, 6));
  ((234183, 6), (2592864, 6), (672583, 6));
  ((238596, 6), (2610037, 6), (591242, 6));
  ((243091, 6), (2614369, 6), (518054, 6));
  ((247671, 6), (2611533, 6), (452457, 6));
  ((252338, 6), (2601842, 6), (387131, 6));
  ((257092, 6), (2583646, 6), (326981, 6));
  ((261936, 6), (25585, 4), (274948, 6));
  ((266871, 6), (2529054, 6), (232703, 6));
  ((271899, 6), (2498146, 6), (200034, 6));
  ((277022, 6), (2468192, 6), (175849, 6));
  ((282242, 6), (2440879, 6), (158014, 6));
  ((28756, 5), (2416946, 6), (144266, 6));
  ((292978, 6), (239603, 5), (132192, 6));
  ((298498, 6), (2377475, 6), (121522, 6));
  ((304122, 6), (2361544, 6), (112057, 6));
  ((309852, 6), (2344878, 6), (97244, 6));
  ((31569, 5), (2327401, 6), (90259, 6));
  ((321638, 6), (2313067, 6), (8489, 5));
  ((327698, 6), (2299073, 6), (75455, 6));
  ((333872, 6), (2284646, 6), (7085, 5));
  ((340163, 6), (2272668, 6), (68438, 6));
  ((346572, 6), (2262346, 6), (63965, 6));
  ((353102, 6), (225238, 5), (59838, 6));
  ((359755, 6), (2242995, 6), (56106, 6));
  ((366533, 6), (2234227, 6), (52575, 6));
  ((373439, 6), (2225945, 6), (49079, 6));
  ((380475, 6), (2218046, 6), (45771, 6));
  ((387643, 6), (2210459, 6), (4257, 5));
  ((394947, 6), (2203195, 6), (39735, 6));
  ((402388, 6), (2196309, 6), (37077, 6));
  ((40997, 5), (2189773, 6), (34591, 6));
  ((417694, 6), (2183516, 6), (3215, 5));
  ((425564, 6), (2177509, 6), (29938, 6));
  ((433582, 6), (2171784, 6), (27862, 6));
  ((441752, 6), (2166291, 6), (25847, 6));
  ((450075, 6), (2160999, 6), (23992, 6));
  ((458555, 6), (2155916, 6), (2226, 5));
  ((467195, 6), (2151042, 6), (20672, 6));
  ((475997, 6), (2146366, 6), (1916, 5));
  ((484965, 6), (2141875, 6), (17776, 6));
  ((494103, 6), (2137538, 6), (16424, 6));
  ((503412, 6), (2133353, 6), (15261, 6));
  ((512897, 6), (2129353, 6), (14182, 6));
  ((522561, 6), (212552, 5), (13182, 6));
  ((532407, 6), (2121802, 6), (12206, 6));
  ((542438, 6), (2118237, 6), (11465, 6));
  ((552658, 6), (2114865, 6), (10744, 6));
  ((563071, 6), (2111633, 6), (10065, 6));
  ((57368, 5), (2108538, 6), (9478, 6));
  ((584489, 6), (2105606, 6), (8958, 6));
  ((595501, 6), (210278, 5), (8386, 6));
  ((606721, 6), (2100052, 6), (7976, 6));
  ((618153, 6), (2097506, 6), (766, 5));
  ((629799, 6), (2095102, 6), (7266, 6));
  ((641666, 6), (2092795, 6), (6922, 6));
  ((653756, 6), (2090601, 6), (6599, 6));
  ((666073, 6), (2088483, 6), (6256, 6));
  ((678623, 6), (2086529, 6), (612, 5));
  ((691409, 6), (2084691, 6), (5687, 6));
  ((704436, 6), (2082859, 6), (5339, 6));
  ((717708, 6), (2081029, 6), (4917, 6));
  ((731231, 6), (207927, 5), (4765, 6));
  ((745008, 6), (2077617, 6), (4474, 6));
  ((759045, 6), (2076014, 6), (4288, 6));
  ((773347, 6), (2074499, 6), (4105, 6));
  ((787917, 6), (2073057, 6), (3927, 6));
  ((802763, 6), (2071678, 6), (3752, 6));
  ((817888, 6), (2070356, 6), (358, 5));
  ((833298, 6), (2069088, 6), (3417, 6));
  ((848998, 6), (2067873, 6), (3264, 6));
  ((864995, 6), (206671, 5), (3113, 6));
  ((881292, 6), (2065595, 6), (2965, 6));
  ((897897, 6), (2064523, 6), (2819, 6));
  ((914814, 6), (2063492, 6), (2676, 6));
  ((932051, 6), (20625, 4), (2535, 6));
  ((949612, 6), (2061544, 6), (2397, 6));
  ((967504, 6), (2060621, 6), (226, 5));
  ((985733, 6), (2059728, 6), (2126, 6));
  ((100431, 5), (2058858, 6), (1993, 6));
  ((102323, 5), (2058014, 6), (1883, 6));
  ((104251, 5), (2057206, 6), (1791, 6));
  ((106215, 5), (2056435, 6), (1702, 6));
  ((108216, 5), (2055695, 6), (1614, 6));
  ((110255, 5), (2054984, 6), (1527, 6));
  ((112332, 5), (20543, 4), (1442, 6));
  ((114449, 5), (205364, 5), (1359, 6));
  ((116605, 5), (2053003, 6), (1277, 6));
  ((118802, 5), (2052387, 6), (1197, 6));
  ((121041, 5), (205179, 5), (1118, 6));
  ((123321, 5), (2051209, 6), (104, 5));
  ((125645, 5), (2050644, 6), (974, 6));
  ((128012, 5), (2050097, 6), (912, 6));
  ((130424, 5), (2049564, 6), (852, 6));
  ((132881, 5), (2049043, 6), (807, 6));
  ((135385, 5), (2048546, 6), (79, 5));
  ((137936, 5), (2048078, 6), (773, 6));
  ((140535, 5), (2047633, 6), (757, 6));
  ((143182, 5), (2047209, 6), (741, 6));
  ((14588, 4), (2046804, 6), (725, 6));
  ((148629, 5), (2046415, 6), (71, 5));
  ((151429, 5), (2046043, 6), (694, 6));
  ((15201, 4), (21057, 4), (25268, 7));
  ((15435, 4), (21048, 4), (25726, 7));
  ((15672, 4), (21039, 4), (26195, 7));
  ((15912, 4), (21031, 4), (26674, 7));
  ((16157, 4), (21022, 4), (27163, 7));
  ((16404, 4), (21013, 4), (27664, 7));
  ((16656, 4), (21004, 4), (28176, 7));
  ((16912, 4), (20996, 4), (28699, 7));
  ((17172, 4), (20987, 4), (29235, 7));
  ((17435, 4), (20978, 4), (29783, 7));
  ((17703, 4), (20969, 4), (30344, 7));
  ((17974, 4), (20961, 4), (30918, 7));
  ((1825, 3), (20952, 4), (31506, 7));
  ((1853, 3), (20943, 4), (32108, 7));
  ((18815, 4), (20934, 4), (32725, 7));
  ((19104, 4), (20925, 4), (33357, 7));
  ((19397, 4), (20916, 4), (34005, 7));
  ((19695, 4), (20907, 4), (34669, 7));
  ((19997, 4), (20897, 4), (3535, 6));
  ((20304, 4), (20888, 4), (36048, 7));
  ((20615, 4), (20879, 4), (36764, 7));
  ((20932, 4), (20869, 4), (37499, 7));
  ((21253, 4), (20859, 4), (38253, 7));
  ((21579, 4), (20849, 4), (39027, 7));
  ((21911, 4), (20839, 4), (39822, 7));
  ((22247, 4), (20829, 4), (40639, 7));
  ((22588, 4), (20819, 4), (41478, 7));
  ((22935, 4), (20808, 4), (4234, 6));
  ((23287, 4), (20797, 4), (43226, 7));
  ((23644, 4), (20786, 4), (44137, 7));
  ((24007, 4), (20775, 4), (45074, 7));
  ((24376, 4), (20764, 4), (46038, 7));
  ((2475, 3), (20752, 4), (4703, 6));
  ((2513, 3), (2074, 3), (48051, 7));
  ((25516, 4), (20728, 4), (49103, 7));
  ((25907, 4), (20716, 4), (50186, 7));
  ((26305, 4), (20703, 4), (51302, 7));
  ((26709, 4), (2069, 3), (52452, 7));
  ((27119, 4), (20677, 4), (53638, 7));
  ((27535, 4), (20663, 4), (54861, 7));
  ((27957, 4), (20649, 4), (56123, 7));
  ((28387, 4), (20635, 4), (57425, 7));
  ((28822, 4), (2062, 3), (58769, 7));
  ((29265, 4), (20605, 4), (60157, 7));
  ((29714, 4), (2059, 3), (6159, 6));
  ((3017, 3), (20574, 4), (63072, 7));
  ((30633, 4), (20558, 4), (64604, 7));
  ((31103, 4), (20541, 4), (66188, 7));
  ((31581, 4), (20524, 4), (67826, 7));
  ((32065, 4), (20506, 4), (69522, 7));
  ((32557, 4), (20488, 4), (71277, 7));
  ((33057, 4), (20469, 4), (73095, 7));
  ((33565, 4), (20449, 4), (74978, 7));
  ((3408, 3), (20429, 4), (7693, 6));
  ((34603, 4), (20409, 4), (78953, 7));
  ((35134, 4), (20388, 4), (81052, 7));
  ((35673, 4), (20366, 4), (8323, 6));
  ((36221, 4), (20344, 4), (8549, 6));
  ((36777, 4), (2032, 3), (87838, 7));
  ((37341, 4), (20297, 4), (90276, 7));
  ((37914, 4), (20272, 4), (92811, 7));
  ((38496, 4), (20246, 4), (95446, 7));
  ((39087, 4), (2022, 3), (98188, 7));
  ((39687, 4), (20193, 4), (10104, 6));
  ((40296, 4), (20165, 4), (10401, 6));
  ((40915, 4), (20136, 4), (1071, 5));
  ((41543, 4), (20106, 4), (11033, 6));
  ((4218, 3), (20076, 4), (11369, 6));
  ((42828, 4), (20044, 4), (1172, 5));
  ((43485, 4), (20011, 4), (12085, 6));
  ((44153, 4), (19977, 4), (12467, 6));
  ((4483, 3), (19941, 4), (12866, 6));
  ((45518, 4), (19905, 4), (13284, 6));
  ((46217, 4), (19867, 4), (1372, 5));
  ((46926, 4), (19828, 4), (14176, 6));
  ((47647, 4), (19788, 4), (14654, 6));
  ((48378, 4), (19746, 4), (15154, 6));
  ((49121, 4), (19703, 4), (15678, 6));
  ((49875, 4), (19658, 4), (16228, 6));
  ((5064, 3), (19611, 4), (16805, 6));
  ((51417, 4), (19563, 4), (17411, 6));
  ((52207, 4), (19513, 4), (18047, 6));
  ((53008, 4), (19462, 4), (18717, 6));
  ((53821, 4), (19408, 4), (19421, 6));
  ((54648, 4), (19352, 4), (20162, 6));
  ((55486, 4), (19294, 4), (20942, 6));
  ((56338, 4), (19234, 4), (21766, 6));
  ((57203, 4), (19172, 4), (22634, 6));
  ((58081, 4), (19107, 4), (23551, 6));
  ((58972, 4), (1904, 3), (24521, 6));
  ((59877, 4), (1897, 3), (25546, 6));
  ((60796, 4), (18897, 4), (26632, 6));
  ((6173, 3), (18821, 4), (27782, 6));
  ((62677, 4), (18743, 4), (29003, 6));
  ((63639, 4), (1866, 3), (30299, 6));
  ((64616, 4), (18575, 4), (31676, 6));
  ((65608, 4), (18486, 4), (33143, 6));
  ((66615, 4), (18393, 4), (34705, 6));
  ((67637, 4), (18296, 4), (36372, 6));
  ((68675, 4), (18195, 4), (38153, 6));
  ((69729, 4), (18089, 4), (40058, 6));
  ((708, 2), (17978, 4), (421, 4));
  ((71886, 4), (17863, 4), (44291, 6));
  ((7299, 3), (17741, 4), (46647, 6));
  ((7411, 3), (17615, 4), (49184, 6));
  ((75247, 4), (17482, 4), (51922, 6));
  ((76402, 4), (17342, 4), (54883, 6));
  ((77575, 4), (17195, 4), (58093, 6));
  ((78766, 4), (17041, 4), (61581, 6));
  ((79975, 4), (16879, 4), (65382, 6));
  ((81202, 4), (16708, 4), (69535, 6));
  ((82449, 4), (16528, 4), (7409, 5));
  ((83714, 4), (16337, 4), (79102, 6));
  ((84999, 4), (16135, 4), (84638, 6));
  ((86304, 4), (15921, 4), (90781, 6));
  ((87628, 4), (15694, 4), (9763, 5));
  ((88973, 4), (15453, 4), (10531, 5));
  ((90339, 4), (15196, 4), (11397, 5));
  ((91726, 4), (14922, 4), (1238, 4));
  ((93133, 4), (14628, 4), (13506, 5));
  ((94563, 4), (14314, 4), (14805, 5));
  ((96014, 4), (13976, 4), (16319, 5));
  ((97488, 4), (13614, 4), (18104, 5));
  ((98984, 4), (13225, 4), (20233, 5));
  ((1005, 2), (12808, 4), (22806, 5));
  ((10205, 3), (12364, 4), (25957, 5));
  ((10361, 3), (11898, 4), (29866, 5));
  ((1052, 2), (11423, 4), (3476, 4));
  ((10682, 3), (10966, 4), (4089, 4));
  ((10846, 3), (10575, 4), (48455, 5));
  ((11012, 3), (10324, 4), (57426, 5));
  ((11181, 3), (10295, 4), (67319, 5));
  ((11353, 3), (10553, 4), (77072, 5));
  ((11527, 3), (111, 2), (85129, 5));
  ((11704, 3), (11833, 4), (89854, 5));
  ((11884, 3), (12536, 4), (90417, 5));
  ((12066, 3), (12969, 4), (87668, 5));
  ((12251, 3), (13014, 4), (83774, 5));
  ((12439, 3), (12711, 4), (8081, 4));
  ((1263, 2), (12178, 4), (79921, 5));
  ((12824, 3), (11529, 4), (81455, 5));
  ((13021, 3), (10856, 4), (8534, 4));
  ((13221, 3), (10224, 4), (9131, 4));
  ((13424, 3), (96797, 5), (98995, 5));
  ((1363, 2), (92521, 5), (10797, 4));
  ((13839, 3), (89514, 5), (11784, 4));
  ((14051, 3), (87759, 5), (12828, 4));
  ((14267, 3), (87176, 5), (13906, 4));
  ((14486, 3), (87676, 5), (15003, 4));
  ((14708, 3), (89187, 5), (16113, 4));
  ((14934, 3), (9167, 4), (1723, 3));
  ((15163, 3), (95117, 5), (18352, 4));
  ((15396, 3), (99553, 5), (19475, 4));
  ((15632, 3), (10503, 4), (20597, 4));
  ((15872, 3), (11163, 4), (21712, 4));
  ((16116, 3), (11947, 4), (2281, 3));
  ((16363, 3), (12865, 4), (23879, 4));
  ((16614, 3), (1393, 3), (24899, 4));
  ((16869, 3), (15154, 4), (25844, 4));
  ((17128, 3), (16545, 4), (26678, 4));
  ((17391, 3), (181, 2), (27358, 4));
  ((17658, 3), (19805, 4), (27831, 4));
  ((17929, 3), (21624, 4), (28043, 4));
  ((18204, 3), (23501, 4), (27945, 4));
  ((18484, 3), (25354, 4), (27508, 4));
  ((18768, 3), (27087, 4), (26732, 4));
  ((19056, 3), (28607, 4), (25654, 4));
  ((19348, 3), (2984, 3), (24344, 4));
  ((19645, 3), (30744, 4), (22893, 4));
  ((19947, 3), (31314, 4), (21394, 4));
  ((20253, 3), (31573, 4), (19927, 4));
  ((20564, 3), (31562, 4), (18549, 4));
  ((20879, 3), (31329, 4), (17299, 4));
  ((212, 1), (30921, 4), (16197, 4));
  ((21525, 3), (30378, 4), (15249, 4));
  ((21856, 3), (29732, 4), (14455, 4));
  ((22191, 3), (29009, 4), (13809, 4));
  ((22532, 3), (28228, 4), (13306, 4));
  ((22877, 3), (27404, 4), (1294, 3));
  ((23229, 3), (26546, 4), (12708, 4));
  ((23585, 3), (25666, 4), (12607, 4));
  ((23947, 3), (2477, 3), (12638, 4));
  ((24315, 3), (23868, 4), (12805, 4));
  ((24688, 3), (22973, 4), (13113, 4));
  ((25067, 3), (22098, 4), (13567, 4));
  ((25452, 3), (21265, 4), (14173, 4));
  ((25842, 3), (205, 2), (14933, 4));
  ((26239, 3), (19831, 4), (15843, 4));
  ((26642, 3), (19294, 4), (16888, 4));
  ((27051, 3), (18919, 4), (18046, 4));
  ((27466, 3), (18735, 4), (19282, 4));
  ((27887, 3), (18761, 4), (20552, 4));
  ((28315, 3), (19007, 4), (21804, 4));
  ((2875, 2), (1947, 3), (22979, 4));
  ((29191, 3), (20126, 4), (24012, 4));
  ((29639, 3), (20926, 4), (24839, 4));
  ((30094, 3), (2179, 3), (25412, 4));
  ((30556, 3), (22613, 4), (25718, 4));
  ((31025, 3), (23282, 4), (25792, 4));
  ((31501, 3), (23711, 4), (2572, 3));
  ((31985, 3), (23857, 4), (25621, 4));
  ((32476, 3), (23738, 4), (25615, 4));
  ((32974, 3), (23413, 4), (25796, 4));
  ((3348, 2), (22964, 4), (26221, 4));
  ((33994, 3), (22481, 4), (26913, 4));
  ((34516, 3), (2204, 3), (27863, 4));
  ((35046, 3), (21705, 4), (29044, 4));
  ((35584, 3), (2152, 3), (30421, 4));
  ((3613, 2), (21514, 4), (31956, 4));
  ((36684, 3), (21706, 4), (33615, 4));
  ((37248, 3), (2211, 3), (35367, 4));
  ((37819, 3), (22735, 4), (37188, 4));
  ((384, 1), (23593, 4), (39055, 4));
  ((38989, 3), (24695, 4), (40944, 4));
  ((39588, 3), (26058, 4), (42833, 4));
  ((40195, 3), (277, 2), (4469, 3))].

(** nidn/materials/data/titanium_oxide.csv, lines 2-922 *)
Definition titanium_oxide : list line :=
 [((200602492, 9), (1919332825, 9), (1273978672, 9));
  ((201760583, 9), (192481223, 8), (1278812136, 9));
  ((202925359, 9), (1930641143, 9), (1283915961, 9));
  ((20409686, 8), (1936834271, 9), (1289268884, 9));
  ((205275124, 9), (1943404972, 9), (1294849587, 9));
  ((206460191, 9), (1950365309, 9), (1300636761, 9));
  ((207652098, 9), (195772611, 8), (1306609173, 9));
  ((208850887, 9), (1965497026, 9), (131274573, 8));
  ((210056596, 9), (1973686583, 9), (1319025535, 9));
  ((211269266, 9), (1982302247, 9), (1325427946, 9));
  ((212488937, 9), (1991350471, 9), (1331932637, 9));
  ((213715649, 9), (2000836765, 9), (1338519654, 9));
  ((214949443, 9), (2010765753, 9), (1345169476, 9));
  ((21619036, 8), (2021141244, 9), (1351863077, 9));
  ((21743844, 8), (2031966309, 9), (1358581986, 9));
  ((218693726, 9), (2043243366, 9), (1365308347, 9));
  ((219956259, 9), (2054974273, 9), (1372024983, 9));
  ((22122608, 8), (2067160439, 9), (1378715457, 9));
  ((222503232, 9), (2079802943, 9), (1385364122, 9));
  ((223787757, 9), (2092902681, 9), (1391956176, 9));
  ((225079698, 9), (2106460517, 9), (1398477705, 9));
  ((226379097, 9), (2120477468, 9), (1404915705, 9));
  ((227685998, 9), (2134954902, 9), (1411258104, 9));
  ((229000444, 9), (2149894766, 9), (1417493744, 9));
  ((230322478, 9), (2165299831, 9), (142361235, 8));
  ((231652144, 9), (2181173966, 9), (1429604458, 9));
  ((232989486, 9), (2197522434, 9), (1435461299, 9));
  ((234334549, 9), (2214352199, 9), (1441174638, 9));
  ((235687377, 9), (2231672262, 9), (1446736546, 9));
  ((237048015, 9), (2249493991, 9), (1452139109, 9));
  ((238416509, 9), (2267831462, 9), (1457374052, 9));
  ((239792902, 9), (2286701784, 9), (1462432271, 9));
  ((241177242, 9), (2306125399, 9), (1467303267, 9));
  ((242569573, 9), (2326126335, 9), (1471974463, 9));
  ((243969942, 9), (2346732397, 9), (1476430411, 9));
  ((245378396, 9), (2367975255, 9), (148065186, 8));
  ((246794981, 9), (2389890414, 9), (1484614713, 9));
  ((248219744, 9), (2412517012, 9), (1488288845, 9));
  ((249652732, 9), (2435897409, 9), (1491636818, 9));
  ((251093993, 9), (2460076527, 9), (1494612502, 9));
  ((252543575, 9), (2485100876, 9), (1497159628, 9));
  ((254001525, 9), (2511017217, 9), (1499210337, 9));
  ((255467892, 9), (2537870818, 9), (1500683774, 9));
  ((256942724, 9), (2565703239, 9), (1501484828, 9));
  ((25842607, 8), (2594549628, 9), (1501503119, 9));
  ((25991798, 8), (2624435493, 9), (1500612376, 9));
  ((261418503, 9), (265537299, 8), (1498670376, 9));
  ((262927689, 9), (2687356747, 9), (1495519616, 9));
  ((264445587, 9), (2720359379, 9), (1490988935, 9));
  ((265972248, 9), (2754326849, 9), (1484896274, 9));
  ((267507722, 9), (2789173955, 9), (1477052767, 9));
  ((269052061, 9), (2824780311, 9), (146726827, 8));
  ((270605316, 9), (2860987245, 9), (1455358385, 9));
  ((272167537, 9), (2897596157, 9), (1441152857, 9));
  ((273738778, 9), (293436884, 8), (1424505081, 9));
  ((275319089, 9), (2971030311, 9), (1405302227, 9));
  ((276908523, 9), (3007274489, 9), (1383475275, 9));
  ((278507134, 9), (304277294, 8), (135900808, 8));
  ((280114973, 9), (3077186514, 9), (133194443, 8));
  ((281732094, 9), (311017939, 8), (1302392102, 9));
  ((283358551, 9), (3141434636, 9), (1270523029, 9));
  ((284994398, 9), (3170670042, 9), (1236569026, 9));
  ((286639689, 9), (3197652813, 9), (1200812935, 9));
  ((288294478, 9), (3222211638, 9), (1163575605, 9));
  ((28995882, 8), (3244244878, 9), (1125199579, 9));
  ((291632771, 9), (3263723918, 9), (1086030806, 9));
  ((293316385, 9), (3280691274, 9), (1046399899, 9));
  ((295009719, 9), (32952535, 7), (1006604526, 9));
  ((296712829, 9), (3307569454, 9), (966894382, 9));
  ((29842577, 8), (331783482, 8), (927459912, 9));
  ((300148601, 9), (3326264045, 9), (888425686, 9));
  ((301881378, 9), (3333070975, 9), (84984897, 8));
  ((303624158, 9), (3338449577, 9), (811723762, 9));
  ((305377, 6), (3342556216, 9), (773990292, 9));
  ((30713996, 8), (3345495026, 9), (7365496, 7));
  ((308913099, 9), (334730794, 8), (699282422, 9));
  ((310696473, 9), (3347970884, 9), (662071018, 9));
  ((312490144, 9), (3347397253, 9), (624821934, 9));
  ((314294169, 9), (334544914, 8), (58748711, 8));
  ((316108609, 9), (3341955695, 9), (550080434, 9));
  ((317933524, 9), (3336736741, 9), (512687041, 9));
  ((319768974, 9), (3329628593, 9), (475463545, 9));
  ((321615021, 9), (3320508329, 9), (438628806, 9));
  ((323471724, 9), (3309312824, 9), (402446598, 9));
  ((325339147, 9), (3296049866, 9), (367203015, 9));
  ((32721735, 8), (3280800175, 9), (33318233, 8));
  ((329106397, 9), (3263710979, 9), (300644969, 9));
  ((331006349, 9), (3244983155, 9), (2698104, 7));
  ((332917269, 9), (3224854738, 9), (240846436, 9));
  ((334839222, 9), (3203583603, 9), (21386508, 8));
  ((33677227, 8), (3181431616, 9), (188923971, 9));
  ((338716477, 9), (3158651695, 9), (166031931, 9));
  ((340671909, 9), (313547842, 8), (145156933, 9));
  ((342638629, 9), (3112122158, 9), (126235036, 9));
  ((344616703, 9), (3088766233, 9), (109179156, 9));
  ((346606197, 9), (3065566491, 9), (9388697, 8));
  ((348607177, 9), (3042652558, 9), (80247564, 9));
  ((350619708, 9), (3020130186, 9), (68146726, 9));
  ((352643858, 9), (2998084204, 9), (5747094, 8));
  ((354679693, 9), (2976581707, 9), (48110237, 9));
  ((356727281, 9), (2955675292, 9), (39960099, 9));
  ((35878669, 8), (2935406233, 9), (32922617, 9));
  ((360857988, 9), (2915807649, 9), (26907082, 9));
  ((362941244, 9), (2896907944, 9), (21830154, 9));
  ((365036527, 9), (2878735503, 9), (17615748, 9));
  ((367143906, 9), (2861331566, 9), (14193178, 9));
  ((369263451, 9), (2844754292, 9), (11448502, 9));
  ((371395232, 9), (2828999505, 9), (9244534, 9));
  ((37353932, 8), (2814033296, 9), (7472892, 9));
  ((375695786, 9), (2799811622, 9), (6047299, 9));
  ((377864701, 9), (2786286984, 9), (4898981, 9));
  ((380046138, 9), (2773411776, 9), (3973052, 9));
  ((382240168, 9), (2761140053, 9), (3225668, 9));
  ((384446865, 9), (2749428435, 9), (2621769, 9));
  ((386666301, 9), (2738236524, 9), (2133294, 9));
  ((38889855, 8), (2727527034, 9), (1737762, 9));
  ((391143686, 9), (2717265746, 9), (1417145, 9));
  ((393401783, 9), (2707421377, 9), (1156976, 9));
  ((395672916, 9), (2697965389, 9), (94563, 8));
  ((397957161, 9), (2688871779, 9), (773757, 9));
  ((400254593, 9), (2680116861, 9), (633834, 9));
  ((402565287, 9), (2671679055, 9), (519797, 9));
  ((404889322, 9), (2663538686, 9), (426755, 9));
  ((407226774, 9), (2655677795, 9), (35076, 8));
  ((40957772, 8), (264807997, 8), (28862, 8));
  ((411942238, 9), (2640730187, 9), (237754, 9));
  ((414320406, 9), (2633614673, 9), (196071, 9));
  ((416712304, 9), (2626720776, 9), (161876, 9));
  ((41911801, 8), (2620036852, 9), (133792, 9));
  ((421537605, 9), (2613552169, 9), (110703, 9));
  ((423971168, 9), (2607256811, 9), (917, 7));
  ((42641878, 8), (2601141602, 9), (76, 6));
  ((428880523, 9), (2595198032, 9), (631, 7));
  ((431356477, 9), (2589418198, 9), (525, 7));
  ((433846725, 9), (2583794742, 9), (436, 7));
  ((43635135, 8), (2578320807, 9), (364, 7));
  ((438870434, 9), (2572989985, 9), (303, 7));
  ((44140406, 8), (2567796283, 9), (253, 7));
  ((443952314, 9), (2562734086, 9), (211, 7));
  ((446515278, 9), (2557798123, 9), (177, 7));
  ((449093039, 9), (2552983439, 9), (148, 7));
  ((451685682, 9), (2548285371, 9), (124, 7));
  ((454293292, 9), (2543699523, 9), (104, 7));
  ((456915955, 9), (2539221746, 9), (875, 8));
  ((45955376, 8), (2534848118, 9), (735, 8));
  ((462206793, 9), (2530574927, 9), (619, 8));
  ((464875142, 9), (252639866, 8), (521, 8));
  ((467558895, 9), (252231598, 8), (44, 7));
  ((470258142, 9), (2518323722, 9), (371, 8));
  ((472972972, 9), (2514418878, 9), (314, 8));
  ((475703475, 9), (2510598584, 9), (266, 8));
  ((478449741, 9), (2506860113, 9), (225, 8));
  ((481211861, 9), (2503200868, 9), (191, 8));
  ((483989928, 9), (2499618369, 9), (162, 8));
  ((486784032, 9), (2496110249, 9), (137, 8));
  ((489594267, 9), (2492674245, 9), (117, 8));
  ((492420726, 9), (2489308195, 9), (994, 9));
  ((495263501, 9), (2486010029, 9), (847, 9));
  ((498122689, 9), (2482777763, 9), (722, 9));
  ((500998382, 9), (2479609497, 9), (616, 9));
  ((503890678, 9), (2476503409, 9), (527, 9));
  ((50679967, 8), (2473457749, 9), (45, 8));
  ((509725457, 9), (2470470839, 9), (385, 9));
  ((512668134, 9), (2467541064, 9), (33, 8));
  ((515627799, 9), (2464666874, 9), (283, 9));
  ((518604551, 9), (2461846776, 9), (243, 9));
  ((521598488, 9), (2459079334, 9), (209, 9));
  ((524609709, 9), (2456363164, 9), (18, 8));
  ((527638314, 9), (2453696936, 9), (155, 9));
  ((530684403, 9), (2451079363, 9), (133, 9));
  ((533748077, 9), (2448509208, 9), (115, 9));
  ((536829439, 9), (2445985276, 9), (991, 10));
  ((539928589, 9), (2443506414, 9), (856, 10));
  ((543045631, 9), (2441071506, 9), (74, 9));
  ((546180667, 9), (2438679478, 9), (64, 9));
  ((549333803, 9), (2436329289, 9), (555, 10));
  ((552505141, 9), (2434019934, 9), (481, 10));
  ((555694788, 9), (243175044, 8), (417, 10));
  ((558902849, 9), (2429519866, 9), (362, 10));
  ((562129431, 9), (2427327302, 9), (315, 10));
  ((565374639, 9), (2425171863, 9), (274, 10));
  ((568638583, 9), (2423052697, 9), (238, 10));
  ((571921369, 9), (2420968976, 9), (207, 10));
  ((575223107, 9), (2418919896, 9), (181, 10));
  ((578543906, 9), (2416904679, 9), (158, 10));
  ((581883877, 9), (241492257, 8), (138, 10));
  ((585243129, 9), (2412972838, 9), (12, 9));
  ((588621775, 9), (241105477, 8), (105, 10));
  ((592019925, 9), (2409167678, 9), (921, 11));
  ((595437693, 9), (2407310889, 9), (806, 11));
  ((598875193, 9), (2405483754, 9), (706, 11));
  ((602332537, 9), (240368564, 8), (619, 11));
  ((605809841, 9), (2401915932, 9), (543, 11));
  ((609307219, 9), (2400174031, 9), (476, 11));
  ((612824788, 9), (2398459357, 9), (418, 11));
  ((616362664, 9), (2396771343, 9), (367, 11));
  ((619920965, 9), (239510944, 8), (323, 11));
  ((623499807, 9), (2393473112, 9), (284, 11));
  ((627099311, 9), (2391861837, 9), (249, 11));
  ((630719595, 9), (2390275109, 9), (219, 11));
  ((634360779, 9), (2388712432, 9), (193, 11));
  ((638022984, 9), (2387173324, 9), (17, 10));
  ((641706331, 9), (2385657318, 9), (149, 11));
  ((645410942, 9), (2384163954, 9), (131, 11));
  ((64913694, 8), (2382692788, 9), (115, 11));
  ((652884448, 9), (2381243385, 9), (101, 11));
  ((656653591, 9), (237981532, 8), (886, 12));
  ((660444494, 9), (2378408181, 9), (776, 12));
  ((664257281, 9), (2377021563, 9), (679, 12));
  ((66809208, 8), (2375655073, 9), (593, 12));
  ((671949018, 9), (2374308328, 9), (516, 12));
  ((675828222, 9), (2372980951, 9), (449, 12));
  ((679729821, 9), (2371672576, 9), (389, 12));
  ((683653944, 9), (2370382846, 9), (335, 12));
  ((687600721, 9), (2369111412, 9), (287, 12));
  ((691570284, 9), (2367857931, 9), (245, 12));
  ((695562763, 9), (2366622072, 9), (207, 12));
  ((69957829, 8), (2365403507, 9), (173, 12));
  ((703617, 6), (2364201918, 9), (143, 12));
  ((707679025, 9), (2363016994, 9), (116, 12));
  ((711764501, 9), (236184843, 8), (915, 13));
  ((715873562, 9), (2360695928, 9), (696, 13));
  ((720006345, 9), (2359559197, 9), (499, 13));
  ((724162987, 9), (2358437951, 9), (322, 13));
  ((728343626, 9), (2357331913, 9), (162, 13));
  ((732548399, 9), (2356240809, 9), (177, 14));
  ((736777447, 9), (2355164372, 9), (0, 0));
  ((74103091, 8), (2354102341, 9), (0, 0));
  ((745308928, 9), (2353054459, 9), (0, 0));
  ((749611643, 9), (2352020475, 9), (0, 0));
  ((753939199, 9), (2351000146, 9), (0, 0));
  ((758291737, 9), (2349993228, 9), (0, 0));
  ((762669403, 9), (2348999489, 9), (0, 0));
  ((767072342, 9), (2348018695, 9), (0, 0));
  ((771500699, 9), (2347050621, 9), (0, 0));
  ((775954621, 9), (2346095046, 9), (0, 0));
  ((780434256, 9), (2345151752, 9), (0, 0));
  ((784939752, 9), (2344220526, 9), (0, 0));
  ((789471258, 9), (2343301159, 9), (0, 0));
  ((794028926, 9), (2342393446, 9), (0, 0));
  ((798612905, 9), (2341497186, 9), (0, 0));
  ((803223347, 9), (2340612182, 9), (0, 0));
  ((807860406, 9), (2339738241, 9), (0, 0));
  ((812524235, 9), (2338875173, 9), (0, 0));
  ((817214989, 9), (2338022791, 9), (0, 0));
  ((821932823, 9), (2337180914, 9), (0, 0));
  ((826677893, 9), (2336349361, 9), (0, 0));
  ((831450356, 9), (2335527957, 9), (0, 0));
  ((836250371, 9), (2334716528, 9), (0, 0));
  ((841078098, 9), (2333914905, 9), (0, 0));
  ((845933694, 9), (2333122922, 9), (0, 0));
  ((850817323, 9), (2332340413, 9), (0, 0));
  ((855729145, 9), (2331567219, 9), (0, 0));
  ((860669323, 9), (2330803182, 9), (0, 0));
  ((865638021, 9), (2330048145, 9), (0, 0));
  ((870635404, 9), (2329301957, 9), (0, 0));
  ((875661637, 9), (2328564468, 9), (0, 0));
  ((880716887, 9), (2327835529, 9), (0, 0));
  ((885801321, 9), (2327114996, 9), (0, 0));
  ((890915108, 9), (2326402727, 9), (0, 0));
  ((896058417, 9), (2325698582, 9), (0, 0));
  ((901231419, 9), (2325002421, 9), (0, 0));
  ((906434284, 9), (2324314111, 9), (0, 0));
  ((911667187, 9), (2323633518, 9), (0, 0));
  ((916930299, 9), (232296051, 8), (0, 0));
  ((922223795, 9), (2322294958, 9), (0, 0));
  ((927547851, 9), (2321636735, 9), (0, 0));
  ((932902643, 9), (2320985717, 9), (0, 0));
  ((938288349, 9), (232034178, 8), (0, 0));
  ((943705147, 9), (2319704803, 9), (0, 0));
  ((949153216, 9), (2319074667, 9), (0, 0));
  ((954632738, 9), (2318451255, 9), (0, 0));
  ((960143892, 9), (231783445, 8), (0, 0));
  ((965686864, 9), (231722414, 8), (0, 0));
  ((971261835, 9), (231662021, 8), (0, 0));
  ((97686899, 8), (2316022553, 9), (0, 0));
  ((982508517, 9), (2315431057, 9), (0, 0));
  ((9881806, 7), (2314845617, 9), (0, 0));
  ((993885429, 9), (2314266125, 9), (0, 0));
  ((999623192, 9), (2313692479, 9), (0, 0));
  ((100539408, 8), (2313124575, 9), (0, 0));
  ((1011198283, 9), (2312562313, 9), (0, 0));
  ((1017035995, 9), (2312005591, 9), (0, 0));
  ((1022907408, 9), (2311454312, 9), (0, 0));
  ((1028812716, 9), (2310908378, 9), (0, 0));
  ((1034752117, 9), (2310367695, 9), (0, 0));
  ((1040725806, 9), (2309832166, 9), (0, 0));
  ((1046733982, 9), (23093017, 7), (0, 0));
  ((1052776843, 9), (2308776204, 9), (0, 0));
  ((105885459, 8), (2308255587, 9), (0, 0));
  ((1064967424, 9), (2307739759, 9), (0, 0));
  ((1071115548, 9), (2307228633, 9), (0, 0));
  ((1077299166, 9), (2306722121, 9), (0, 0));
  ((1083518482, 9), (2306220136, 9), (0, 0));
  ((1089773702, 9), (2305722593, 9), (0, 0));
  ((1096065035, 9), (2305229409, 9), (0, 0));
  ((1102392687, 9), (2304740501, 9), (0, 0));
  ((110875687, 8), (2304255785, 9), (0, 0));
  ((1115157793, 9), (2303775182, 9), (0, 0));
  ((1121595669, 9), (2303298611, 9), (0, 0));
  ((1128070712, 9), (2302825992, 9), (0, 0));
  ((1134583135, 9), (2302357249, 9), (0, 0));
  ((1141133155, 9), (2301892302, 9), (0, 0));
  ((1147720988, 9), (2301431076, 9), (0, 0));
  ((1154346854, 9), (2300973495, 9), (0, 0));
  ((1161010971, 9), (2300519485, 9), (0, 0));
  ((1167713561, 9), (230006897, 8), (0, 0));
  ((1174454844, 9), (2299621879, 9), (0, 0));
  ((1181235046, 9), (2299178138, 9), (0, 0));
  ((1188054391, 9), (2298737676, 9), (0, 0));
  ((1194913103, 9), (2298300423, 9), (0, 0));
  ((1201811412, 9), (2297866307, 9), (0, 0));
  ((1208749545, 9), (2297435259, 9), (0, 0));
  ((1215727732, 9), (2297007211, 9), (0, 0));
  ((1222746205, 9), (2296582094, 9), (0, 0));
  ((1229805196, 9), (2296159841, 9), (0, 0));
  ((1236904939, 9), (2295740384, 9), (0, 0));
  ((1244045669, 9), (2295323659, 9), (0, 0));
  ((1251227623, 9), (2294909598, 9), (0, 0));
  ((1258451039, 9), (2294498138, 9), (0, 0));
  ((1265716156, 9), (2294089212, 9), (0, 0));
  ((1273023215, 9), (2293682759, 9), (0, 0));
  ((1280372458, 9), (2293278713, 9), (0, 0));
  ((1287764129, 9), (2292877013, 9), (0, 0));
  ((1295198473, 9), (2292477596, 9), (0, 0));
  ((1302675735, 9), (22920804, 7), (0, 0));
  ((1310196164, 9), (2291685363, 9), (0, 0));
  ((1317760009, 9), (2291292426, 9), (0, 0));
  ((1325367521, 9), (2290901527, 9), (0, 0));
  ((1333018951, 9), (2290512606, 9), (0, 0));
  ((1340714553, 9), (2290125605, 9), (0, 0));
  ((1348454583, 9), (2289740463, 9), (0, 0));
  ((1356239296, 9), (2289357122, 9), (0, 0));
  ((1364068951, 9), (2288975524, 9), (0, 0));
  ((1371943807, 9), (2288595611, 9), (0, 0));
  ((1379864125, 9), (2288217325, 9), (0, 0));
  ((1387830168, 9), (2287840609, 9), (0, 0));
  ((1395842199, 9), (2287465406, 9), (0, 0));
  ((1403900484, 9), (2287091659, 9), (0, 0));
  ((141200529, 8), (2286719313, 9), (0, 0));
  ((1420156885, 9), (2286348311, 9), (0, 0));
  ((142835554, 8), (2285978598, 9), (0, 0));
  ((1436601527, 9), (2285610119, 9), (0, 0));
  ((1444895118, 9), (2285242818, 9), (0, 0));
  ((1453236588, 9), (228487664, 8), (0, 0));
  ((1461626215, 9), (2284511532, 9), (677295, 324));
  ((1470064275, 9), (2284147438, 9), (2695291767, 323));
  ((1478551049, 9), (2283784305, 9), (934592844689, 321));
  ((1487086817, 9), (2283422078, 9), (283, 307));
  ((1495671863, 9), (2283060705, 9), (749, 303));
  ((1504306471, 9), (2282700132, 9), (173, 298));
  ((1512990927, 9), (2282340305, 9), (353, 294));
  ((1521725519, 9), (2281981172, 9), (63, 289));
  ((1530510536, 9), (2281622679, 9), (99, 285));
  ((153934627, 8), (2281264774, 9), (137, 281));
  ((1548233013, 9), (2280907403, 9), (168, 277));
  ((155717106, 8), (2280550516, 9), (181, 273));
  ((1566160706, 9), (2280194059, 9), (173, 269));
  ((1575202251, 9), (227983798, 8), (147, 265));
  ((1584295992, 9), (2279482227, 9), (111, 261));
  ((1593442233, 9), (2279126748, 9), (742, 258));
  ((1602641275, 9), (2278771492, 9), (443, 254));
  ((1611893425, 9), (2278416405, 9), (236, 250));
  ((1621198987, 9), (2278061437, 9), (112, 246));
  ((1630558271, 9), (2277706535, 9), (476, 243));
  ((1639971586, 9), (2277351649, 9), (181, 239));
  ((1649439246, 9), (2276996726, 9), (617, 236));
  ((1658961562, 9), (2276641715, 9), (189, 232));
  ((1668538852, 9), (2276286563, 9), (521, 229));
  ((1678171432, 9), (2275931221, 9), (129, 225));
  ((1687859621, 9), (2275575636, 9), (289, 222));
  ((1697603741, 9), (2275219756, 9), (582, 219));
  ((1707404115, 9), (227486353, 8), (106, 215));
  ((1717261066, 9), (2274506906, 9), (175, 212));
  ((1727174922, 9), (2274149833, 9), (261, 209));
  ((1737146012, 9), (2273792258, 9), (354, 206));
  ((1747174665, 9), (2273434131, 9), (436, 203));
  ((1757261215, 9), (2273075399, 9), (487, 200));
  ((1767405994, 9), (227271601, 8), (496, 197));
  ((1777609341, 9), (2272355913, 9), (461, 194));
  ((1787871591, 9), (2271995055, 9), (39, 190));
  ((1798193087, 9), (2271633384, 9), (302, 188));
  ((1808574169, 9), (2271270847, 9), (213, 185));
  ((1819015181, 9), (2270907393, 9), (138, 182));
  ((1829516471, 9), (2270542969, 9), (818, 180));
  ((1840078384, 9), (2270177522, 9), (445, 177));
  ((1850701273, 9), (2269810999, 9), (222, 174));
  ((1861385488, 9), (2269443348, 9), (102, 171));
  ((1872131384, 9), (2269074514, 9), (432, 169));
  ((1882939316, 9), (2268704445, 9), (168, 166));
  ((1893809643, 9), (2268333088, 9), (604, 164));
  ((1904742726, 9), (2267960387, 9), (2, 159));
  ((1915738925, 9), (226758629, 8), (613, 159));
  ((1926798607, 9), (2267210743, 9), (174, 156));
  ((1937922137, 9), (226683369, 8), (455, 154));
  ((1949109883, 9), (2266455077, 9), (111, 151));
  ((1960362217, 9), (2266074849, 9), (249, 149));
  ((1971679512, 9), (2265692952, 9), (522, 147));
  ((1983062142, 9), (226530933, 8), (101, 144));
  ((1994510485, 9), (2264923926, 9), (183, 142));
  ((2006024919, 9), (2264536685, 9), (309, 140));
  ((2017605828, 9), (2264147551, 9), (484, 138));
  ((2029253593, 9), (2263756467, 9), (709, 136));
  ((2040968602, 9), (2263363376, 9), (968, 134));
  ((2052751242, 9), (2262968222, 9), (123, 131));
  ((2064601905, 9), (2262570945, 9), (147, 129));
  ((2076520982, 9), (2262171489, 9), (164, 127));
  ((2088508868, 9), (2261769794, 9), (172, 125));
  ((2100565961, 9), (2261365803, 9), (168, 123));
  ((2112692661, 9), (2260959456, 9), (155, 121));
  ((2124889369, 9), (2260550694, 9), (133, 119));
  ((2137156489, 9), (2260139457, 9), (108, 117));
  ((2149494428, 9), (2259725684, 9), (824, 116));
  ((2161903595, 9), (2259309314, 9), (591, 114));
  ((21743844, 7), (2258890288, 9), (399, 112));
  ((2186937258, 9), (2258468542, 9), (254, 110));
  ((2199562585, 9), (2258044015, 9), (153, 108));
  ((2212260798, 9), (2257616644, 9), (865, 107));
  ((2225032319, 9), (2257186366, 9), (463, 105));
  ((2237877571, 9), (2256753117, 9), (234, 103));
  ((2250796979, 9), (2256316834, 9), (112, 101));
  ((2263790972, 9), (2255877451, 9), (507, 100));
  ((227685998, 8), (2255434904, 9), (218, 98));
  ((2290004436, 9), (2254989127, 9), (885, 97));
  ((2303224776, 9), (2254540052, 9), (341, 95));
  ((2316521438, 9), (2254087615, 9), (125, 93));
  ((2329894862, 9), (2253631746, 9), (434, 92));
  ((2343345492, 9), (2253172378, 9), (143, 90));
  ((2356873773, 9), (2252709442, 9), (45, 88));
  ((2370480154, 9), (2252242869, 9), (135, 87));
  ((2384165085, 9), (2251772588, 9), (383, 86));
  ((239792902, 8), (2251298529, 9), (104, 84));
  ((2411772416, 9), (2250820621, 9), (268, 83));
  ((242569573, 8), (2250338791, 9), (662, 82));
  ((2439699424, 9), (2249852967, 9), (156, 80));
  ((2453783962, 9), (2249363075, 9), (35, 78));
  ((2467949812, 9), (2248869041, 9), (751, 78));
  ((2482197442, 9), (2248370789, 9), (154, 76));
  ((2496527324, 9), (2247868245, 9), (303, 75));
  ((2510939933, 9), (224736133, 8), (57, 73));
  ((2525435748, 9), (2246849969, 9), (103, 72));
  ((2540015247, 9), (2246334082, 9), (177, 71));
  ((2554678915, 9), (224581359, 8), (293, 70));
  ((2569427238, 9), (2245288414, 9), (465, 69));
  ((2584260703, 9), (2244758473, 9), (709, 68));
  ((2599179803, 9), (2244223684, 9), (104, 66));
  ((2614185032, 9), (2243683965, 9), (146, 65));
  ((2629276887, 9), (2243139233, 9), (197, 64));
  ((2644455868, 9), (2242589403, 9), (256, 63));
  ((2659722478, 9), (2242034389, 9), (32, 61));
  ((2675077224, 9), (2241474105, 9), (385, 61));
  ((2690520613, 9), (2240908463, 9), (447, 60));
  ((2706053158, 9), (2240337374, 9), (5, 57));
  ((2721675373, 9), (2239760749, 9), (538, 58));
  ((2737387777, 9), (2239178497, 9), (56, 56));
  ((2753190889, 9), (2238590527, 9), (561, 56));
  ((2769085233, 9), (2237996744, 9), (544, 55));
  ((2785071337, 9), (2237397055, 9), (509, 54));
  ((2801149729, 9), (2236791364, 9), (46, 52));
  ((2817320943, 9), (2236179575, 9), (402, 52));
  ((2833585514, 9), (2235561591, 9), (34, 50));
  ((2849943982, 9), (2234937311, 9), (278, 50));
  ((2866396888, 9), (2234306636, 9), (22, 48));
  ((2882944778, 9), (2233669463, 9), (169, 48));
  ((28995882, 7), (2233025691, 9), (125, 47));
  ((2916327705, 9), (2232375214, 9), (902, 47));
  ((2933163849, 9), (2231717927, 9), (629, 46));
  ((2950097188, 9), (2231053722, 9), (426, 45));
  ((2967128285, 9), (2230382491, 9), (28, 43));
  ((2984257704, 9), (2229704124, 9), (179, 43));
  ((3001486011, 9), (222901851, 8), (111, 42));
  ((3018813779, 9), (2228325533, 9), (666, 42));
  ((3036241581, 9), (2227625081, 9), (39, 40));
  ((3053769995, 9), (2226917037, 9), (222, 40));
  ((3071399602, 9), (2226201282, 9), (123, 39));
  ((3089130985, 9), (2225477697, 9), (66, 38));
  ((3106964733, 9), (2224746161, 9), (346, 38));
  ((3124901436, 9), (222400655, 8), (176, 37));
  ((3142941689, 9), (2223258738, 9), (876, 37));
  ((316108609, 8), (22225026, 7), (424, 36));
  ((3179335239, 9), (2221738006, 9), (2, 33));
  ((3197689741, 9), (2220964826, 9), (92, 34));
  ((3216150206, 9), (2220182926, 9), (413, 34));
  ((3234717243, 9), (2219392173, 9), (181, 33));
  ((325339147, 8), (221859243, 8), (771, 33));
  ((3272173504, 9), (2217783557, 9), (322, 32));
  ((3291063968, 9), (2216965414, 9), (131, 31));
  ((3310063487, 9), (2216137857, 9), (521, 31));
  ((3329172692, 9), (221530074, 8), (203, 30));
  ((3348392216, 9), (2214453917, 9), (77, 29));
  ((3367722695, 9), (2213597236, 9), (286, 29));
  ((338716477, 8), (2212730546, 9), (104, 28));
  ((3406719086, 9), (221185369, 8), (37, 27));
  ((342638629, 8), (2210966511, 9), (129, 27));
  ((3446167034, 9), (221006885, 8), (438, 27));
  ((3466061973, 9), (2209160542, 9), (146, 26));
  ((3486071767, 9), (2208241423, 9), (477, 26));
  ((3506197079, 9), (2207311323, 9), (153, 25));
  ((3526438576, 9), (2206370071, 9), (479, 25));
  ((3546796928, 9), (2205417493, 9), (147, 24));
  ((356727281, 8), (2204453411, 9), (445, 24));
  ((3587866901, 9), (2203477645, 9), (132, 23));
  ((3608579883, 9), (220249001, 8), (382, 23));
  ((3629412442, 9), (220149032, 8), (109, 22));
  ((3650365268, 9), (2200478384, 9), (304, 22));
  ((3671439057, 9), (2199454008, 9), (833, 22));
  ((3692634506, 9), (2198416994, 9), (225, 21));
  ((3713952318, 9), (219736714, 8), (595, 21));
  ((3735393198, 9), (2196304243, 9), (155, 20));
  ((3756957859, 9), (2195228092, 9), (395, 20));
  ((3778647013, 9), (2194138475, 9), (993, 20));
  ((380046138, 8), (2193035173, 9), (245, 19));
  ((3822401683, 9), (2191917967, 9), (596, 19));
  ((3844468649, 9), (2190786629, 9), (143, 18));
  ((3866663009, 9), (2189640927, 9), (335, 18));
  ((3888985498, 9), (2188480629, 9), (776, 18));
  ((3911436856, 9), (2187305492, 9), (177, 17));
  ((3934017828, 9), (2186115272, 9), (396, 17));
  ((395672916, 8), (2184909719, 9), (875, 17));
  ((3979571607, 9), (2183688575, 9), (19, 15));
  ((4002545925, 9), (2182451579, 9), (408, 16));
  ((4025652874, 9), (2181198463, 9), (862, 16));
  ((4048893222, 9), (2179928955, 9), (179, 15));
  ((4072267738, 9), (2178642773, 9), (368, 15));
  ((4095777196, 9), (2177339631, 9), (745, 15));
  ((4119422376, 9), (2176019237, 9), (149, 14));
  ((4143204061, 9), (2174681288, 9), (292, 14));
  ((4167123039, 9), (2173325477, 9), (568, 14));
  ((4191180103, 9), (2171951488, 9), (109, 13));
  ((4215376049, 9), (2170558997, 9), (206, 13));
  ((4239711681, 9), (2169147671, 9), (384, 13));
  ((4264187803, 9), (216771717, 8), (707, 13));
  ((4288805228, 9), (216626714, 8), (129, 12));
  ((4313564771, 9), (2164797223, 9), (231, 12));
  ((4338467252, 9), (2163307045, 9), (41, 11));
  ((4363513497, 9), (2161796223, 9), (719, 12));
  ((4388704335, 9), (2160264363, 9), (125, 11));
  ((4414040602, 9), (2158711057, 9), (213, 11));
  ((4439523137, 9), (2157135885, 9), (361, 11));
  ((4465152783, 9), (2155538411, 9), (605, 11));
  ((4490930392, 9), (2153918185, 9), (1, 8));
  ((4516856816, 9), (2152274738, 9), (164, 10));
  ((4542932915, 9), (2150607585, 9), (265, 10));
  ((4569159553, 9), (2148916223, 9), (425, 10));
  ((4595537599, 9), (2147200122, 9), (673, 10));
  ((4622067927, 9), (2145458734, 9), (105, 9));
  ((4648751416, 9), (2143691483, 9), (164, 9));
  ((4675588951, 9), (2141897763, 9), (251, 9));
  ((470258142, 8), (2140076944, 9), (382, 9));
  ((4729729719, 9), (2138228352, 9), (576, 9));
  ((4757034747, 9), (2136351284, 9), (858, 9));
  ((4784497408, 9), (2134444989, 9), (127, 8));
  ((4812118613, 9), (2132508673, 9), (185, 8));
  ((4839899277, 9), (2130541491, 9), (269, 8));
  ((486784032, 8), (2128542541, 9), (386, 8));
  ((4895942669, 9), (2126510867, 9), (549, 8));
  ((4924207255, 9), (2124445442, 9), (775, 8));
  ((4952635014, 9), (2122345174, 9), (108, 7));
  ((4981226887, 9), (2120208901, 9), (15, 6));
  ((5009983824, 9), (2118035381, 9), (206, 7));
  ((5038906776, 9), (2115823301, 9), (281, 7));
  ((5067996703, 9), (2113571272, 9), (38, 6));
  ((5097254567, 9), (2111277836, 9), (509, 7));
  ((5126681339, 9), (2108941468, 9), (677, 7));
  ((5156277993, 9), (2106560591, 9), (893, 7));
  ((5186045511, 9), (2104133588, 9), (116923, 9));
  ((5215984878, 9), (2101658822, 9), (151879, 9));
  ((5246097088, 9), (2099134662, 9), (195796, 9));
  ((5276383137, 9), (2096559509, 9), (250538, 9));
  ((5306844029, 9), (2093931842, 9), (318239, 9));
  ((5337480774, 9), (2091250248, 9), (401321, 9));
  ((5368294386, 9), (2088513479, 9), (5025, 7));
  ((5399285888, 9), (2085720503, 9), (624789, 9));
  ((5430456306, 9), (2082870554, 9), (771491, 9));
  ((5461806672, 9), (2079963213, 9), (94618, 8));
  ((5493338026, 9), (207699844, 8), (1152676, 9));
  ((5525051413, 9), (2073976664, 9), (1395005, 9));
  ((5556947883, 9), (2070898821, 9), (1677346, 9));
  ((5589028493, 9), (2067766425, 9), (2003971, 9));
  ((5621294306, 9), (2064581606, 9), (2379163, 9));
  ((5653746393, 9), (206134715, 8), (2807132, 9));
  ((5686385827, 9), (205806653, 8), (329191, 8));
  ((571921369, 8), (2054743907, 9), (3837251, 9));
  ((5752231071, 9), (205138413, 8), (4446508, 9));
  ((5785439064, 9), (204799271, 8), (5122517, 9));
  ((5818838768, 9), (2044575777, 9), (5867479, 9));
  ((5852431291, 9), (2041140011, 9), (668284, 8));
  ((5886217745, 9), (2037692553, 9), (7569184, 9));
  ((5920199251, 9), (2034240908, 9), (8526129, 9));
  ((5954376934, 9), (2030792792, 9), (9552247, 9));
  ((5988751928, 9), (2027356025, 9), (10644991, 9));
  ((602332537, 8), (2023938339, 9), (11800653, 9));
  ((6058098407, 9), (2020547237, 9), (13014342, 9));
  ((609307219, 8), (2017189791, 9), (14279991, 9));
  ((612824788, 8), (2013872485, 9), (15590386, 9));
  ((6163626641, 9), (2010601033, 9), (16937232, 9));
  ((6199209646, 9), (2007380218, 9), (18311242, 9));
  ((6234998074, 9), (2004213732, 9), (19702252, 9));
  ((6270993111, 9), (2001104048, 9), (21099366, 9));
  ((6307195949, 9), (1998052307, 9), (22491116, 9));
  ((6343607788, 9), (1995058222, 9), (23865644, 9));
  ((6380229836, 9), (1992120029, 9), (25210892, 9));
  ((6417063305, 9), (1989234468, 9), (26514808, 9));
  ((6454109415, 9), (1986396753, 9), (27765542, 9));
  ((6491369396, 9), (1983600648, 9), (28951651, 9));
  ((652884448, 8), (1980838502, 9), (30062292, 9));
  ((6566535911, 9), (1978101352, 9), (31087393, 9));
  ((6604444936, 9), (197537903, 8), (32017824, 9));
  ((6642572813, 9), (1972660332, 9), (32845528, 9));
  ((6680920804, 9), (1969933134, 9), (33563644, 9));
  ((6719490181, 9), (196718459, 8), (34166593, 9));
  ((6758282221, 9), (1964401294, 9), (34650138, 9));
  ((679729821, 8), (1961569474, 9), (35011423, 9));
  ((6836539441, 9), (1958675158, 9), (35248977, 9));
  ((6876007214, 9), (1955704369, 9), (35362695, 9));
  ((6915702837, 9), (1952643258, 9), (35353793, 9));
  ((6955627625, 9), (1949478299, 9), (35224744, 9));
  ((6995782901, 9), (1946196404, 9), (34979193, 9));
  ((7036169997, 9), (1942785027, 9), (34621852, 9));
  ((7076790249, 9), (1939232312, 9), (3415839, 8));
  ((7117645005, 9), (1935527135, 9), (33595308, 9));
  ((7158735619, 9), (193165918, 8), (32939807, 9));
  ((720006345, 8), (192761896, 8), (32199657, 9));
  ((724162987, 8), (1923397899, 9), (31383061, 9));
  ((7283436256, 9), (1918988248, 9), (30498525, 9));
  ((7325483992, 9), (1914383141, 9), (29554732, 9));
  ((7367774473, 9), (1909576499, 9), (28560423, 9));
  ((7410309099, 9), (1904563068, 9), (27524283, 9));
  ((745308928, 8), (1899338238, 9), (26454844, 9));
  ((7496116434, 9), (1893898073, 9), (25360393, 9));
  ((7539391987, 9), (188823921, 8), (24248896, 9));
  ((7582917371, 9), (1882358704, 9), (23127933, 9));
  ((7626694031, 9), (1876254011, 9), (22004644, 9));
  ((7670723416, 9), (1869922826, 9), (20885695, 9));
  ((7715006986, 9), (186336301, 8), (19777248, 9));
  ((7759546207, 9), (185657248, 8), (1868495, 8));
  ((7804342556, 9), (1849549058, 9), (17613935, 9));
  ((7849397518, 9), (184229043, 8), (16568838, 9));
  ((7894712584, 9), (1834793952, 9), (15553821, 9));
  ((7940289257, 9), (1827056604, 9), (14572614, 9));
  ((7986129047, 9), (1819074859, 9), (13628566, 9));
  ((8032233473, 9), (1810844562, 9), (12724713, 9));
  ((8078604063, 9), (1802360857, 9), (1186386, 8));
  ((8125242354, 9), (1793618041, 9), (11048672, 9));
  ((817214989, 8), (1784609532, 9), (10281786, 9));
  ((8219328226, 9), (1775327712, 9), (9565932, 9));
  ((8266778925, 9), (1765763901, 9), (890408, 8));
  ((8314503561, 9), (1755908271, 9), (8299589, 9));
  ((8362503714, 9), (1745749743, 9), (775639, 8));
  ((8410780975, 9), (1735276035, 9), (727917, 8));
  ((8459336943, 9), (1724473535, 9), (6873589, 9));
  ((8508173228, 9), (1713327302, 9), (6546507, 9));
  ((8557291448, 9), (170182118, 8), (6306225, 9));
  ((8606693231, 9), (1689937739, 9), (6162753, 9));
  ((8656380213, 9), (167765834, 8), (6128083, 9));
  ((8706354042, 9), (1664963266, 9), (6216482, 9));
  ((8756616372, 9), (165183193, 8), (6444792, 9));
  ((880716887, 8), (1638242931, 9), (6832743, 9));
  ((8858013211, 9), (1624174381, 9), (7403264, 9));
  ((8909151079, 9), (1609604139, 9), (81828, 7));
  ((896058417, 8), (1594510146, 9), (9201625, 9));
  ((9012314186, 9), (1578870821, 9), (10494142, 9));
  ((9064342844, 9), (1562665558, 9), (12099173, 9));
  ((9116671866, 9), (1545875136, 9), (14060228, 9));
  ((9169302987, 9), (1528482398, 9), (16425745, 9));
  ((9222237951, 9), (1510472944, 9), (19249299, 9));
  ((9275478512, 9), (1491835729, 9), (22589758, 9));
  ((9329026434, 9), (147256406, 8), (265114, 7));
  ((9382883491, 9), (1452656473, 9), (31083941, 9));
  ((9437051469, 9), (1432117733, 9), (3638249, 8));
  ((9491532161, 9), (1410960076, 9), (42487387, 9));
  ((9546327375, 9), (1389204426, 9), (49483898, 9));
  ((9601438924, 9), (1366881906, 9), (5746172, 8));
  ((9656868636, 9), (1344035424, 9), (66514245, 9));
  ((9712618347, 9), (132072135, 8), (76737502, 9));
  ((9768689904, 9), (1297011412, 9), (8822869, 8));
  ((9825085167, 9), (1272994678, 9), (101084166, 9));
  ((9881806002, 9), (1248779417, 9), (115396768, 9));
  ((9938854291, 9), (1224494787, 9), (131252325, 9));
  ((9996231923, 9), (1200292281, 9), (148725183, 9));
  ((100539408, 7), (117634619, 8), (167872708, 9));
  ((1011198283, 8), (1152852627, 9), (188728798, 9));
  ((1017035995, 8), (1130027157, 9), (211296568, 9));
  ((1022907408, 8), (1108099488, 9), (235540867, 9));
  ((1028812716, 8), (1087305407, 9), (261381456, 9));
  ((1034752117, 8), (1067875821, 9), (288688099, 9));
  ((1040725806, 8), (1050022991, 9), (317279098, 9));
  ((1046733982, 8), (1033926137, 9), (346924304, 9));
  ((1052776843, 8), (1019717235, 9), (377353483, 9));
  ((105885459, 7), (1007470267, 9), (408269348, 9));
  ((1064967424, 8), (997195143, 9), (439363879, 9));
  ((1071115548, 8), (988837408, 9), (470335603, 9));
  ((1077299166, 8), (982283767, 9), (500905236, 9));
  ((1083518482, 8), (977371138, 9), (530828292, 9));
  ((1089773702, 8), (973898197, 9), (55990343, 8));
  ((1096065035, 8), (971637564, 9), (587976614, 9));
  ((1102392687, 8), (970346714, 9), (614942171, 9));
  ((110875687, 7), (969777517, 9), (64074151, 8));
  ((1115157793, 8), (969683914, 9), (665360714, 9));
  ((1121595669, 8), (969828334, 9), (688827593, 9));
  ((1128070712, 8), (969986822, 9), (711209, 6));
  ((1134583135, 8), (969954345, 9), (732607932, 9));
  ((1141133155, 8), (969549431, 9), (753161207, 9));
  ((1147720988, 8), (96861976, 8), (773036494, 9));
  ((1154346854, 8), (967048422, 9), (792428409, 9));
  ((1161010971, 8), (96476023, 8), (811553477, 9));
  ((1167713561, 8), (961728384, 9), (830642719, 9));
  ((1174454844, 8), (957980532, 9), (849931438, 9));
  ((1181235046, 8), (953602724, 9), (869646257, 9));
  ((1188054391, 8), (948739879, 9), (889989654, 9));
  ((1194913103, 8), (94359193, 8), (911122337, 9));
  ((1201811412, 8), (93840364, 8), (933145865, 9));
  ((1208749545, 8), (933448187, 9), (95608735, 8));
  ((1215727732, 8), (929004835, 9), (979889177, 9));
  ((1222746205, 8), (925332295, 9), (1004406507, 9));
  ((1229805196, 8), (922641595, 9), (1029413262, 9));
  ((1236904939, 8), (921070947, 9), (1054617791, 9));
  ((1244045669, 8), (920666542, 9), (1079686208, 9));
  ((1251227623, 8), (921371771, 9), (1104270576, 9));
  ((1258451039, 8), (923025502, 9), (1128039142, 9));
  ((1265716156, 8), (925368877, 9), (1150705825, 9));
  ((1273023215, 8), (928060146, 9), (1172055513, 9));
  ((1280372458, 8), (930695125, 9), (1191964288, 9));
  ((1287764129, 8), (932831349, 9), (1210413857, 9));
  ((1295198473, 8), (934014645, 9), (1227499565, 9));
  ((1302675735, 8), (93380666, 8), (124343223, 8));
  ((1310196164, 8), (931811839, 9), (1258534734, 9));
  ((1317760009, 8), (927704175, 9), (1273232008, 9));
  ((1325367521, 8), (921251865, 9), (1288035857, 9));
  ((1333018951, 8), (912339069, 9), (1303524298, 9));
  ((1340714553, 8), (900984231, 9), (1320314208, 9));
  ((1348454583, 8), (887352294, 9), (1339028515, 9));
  ((1356239296, 8), (871758082, 9), (1360259423, 9));
  ((1364068951, 8), (854660125, 9), (1384527154, 9));
  ((1371943807, 8), (836640547, 9), (1412241486, 9));
  ((1379864125, 8), (818372537, 9), (1443668492, 9));
  ((1387830168, 8), (800577111, 9), (1478908745, 9));
  ((1395842199, 8), (783974068, 9), (1517891689, 9));
  ((1403900484, 8), (769234255, 9), (156038753, 8));
  ((141200529, 7), (756940786, 9), (1606033125, 9));
  ((1420156885, 8), (747563051, 9), (165436845, 8));
  ((142835554, 7), (741445934, 9), (1704875231, 9));
  ((1436601527, 8), (738812061, 9), (1757012598, 9));
  ((1444895118, 8), (739773304, 9), (1810246007, 9));
  ((1453236588, 8), (744347356, 9), (1864067726, 9));
  ((1461626215, 8), (752475804, 9), (1918009093, 9));
  ((1470064275, 8), (764040828, 9), (1971646934, 9));
  ((1478551049, 8), (778879616, 9), (2024604997, 9));
  ((1487086817, 8), (796795618, 9), (2076553349, 9));
  ((1495671863, 8), (81756727, 8), (2127205973, 9));
  ((1504306471, 8), (840954401, 9), (217631828, 8));
  ((1512990927, 8), (866703001, 9), (2223684893, 9));
  ((1521725519, 8), (894549103, 9), (2269137552, 9));
  ((1530510536, 8), (924221845, 9), (2312544259, 9));
  ((153934627, 7), (955446483, 9), (2353808525, 9));
  ((1548233013, 8), (987947866, 9), (2392867901, 9));
  ((155717106, 7), (1021453235, 9), (2429694759, 9));
  ((1566160706, 8), (1055696264, 9), (2464294439, 9));
  ((1575202251, 8), (1090420528, 9), (249670492, 8));
  ((1584295992, 8), (1125383517, 9), (2526994934, 9));
  ((1593442233, 8), (1160360666, 9), (255526138, 8));
  ((1602641275, 8), (1195148666, 9), (2581627286, 9));
  ((1611893425, 8), (1229568954, 9), (2606237878, 9));
  ((1621198987, 8), (1263470636, 9), (2629256181, 9));
  ((1630558271, 8), (1296732178, 9), (2650859329, 9));
  ((1639971586, 8), (1329263145, 9), (2671232739, 9));
  ((1649439246, 8), (1361004464, 9), (2690565377, 9));
  ((1658961562, 8), (1391927881, 9), (2709044766, 9));
  ((1668538852, 8), (1422034546, 9), (2726852108, 9));
  ((1678171432, 8), (1451352894, 9), (2744157455, 9));
  ((1687859621, 8), (1479935831, 9), (2761115328, 9));
  ((1697603741, 8), (1507856496, 9), (2777862497, 9));
  ((1707404115, 8), (1535204567, 9), (2794514644, 9));
  ((1717261066, 8), (1562082008, 9), (2811164459, 9));
  ((1727174922, 8), (1588597979, 9), (282788199, 8));
  ((1737146012, 8), (1614864946, 9), (2844713873, 9));
  ((1747174665, 8), (1640994326, 9), (2861684749, 9));
  ((1757261215, 8), (1667093058, 9), (2878798505, 9));
  ((1767405994, 8), (1693260176, 9), (2896041054, 9));
  ((1777609341, 8), (1719584576, 9), (2913382556, 9));
  ((1787871591, 8), (1746143108, 9), (2930780468, 9));
  ((1798193087, 8), (1772999587, 9), (2948182271, 9));
  ((1808574169, 8), (1800203834, 9), (2965529144, 9));
  ((1819015181, 8), (1827792305, 9), (2982757742, 9));
  ((1829516471, 8), (1855788327, 9), (2999803176, 9));
  ((1840078384, 8), (1884202817, 9), (3016601475, 9));
  ((1850701273, 8), (1913035718, 9), (303309097, 8));
  ((1861385488, 8), (1942277371, 9), (3049213726, 9));
  ((1872131384, 8), (1971909665, 9), (3064917088, 9));
  ((1882939316, 8), (2001907876, 9), (3080153841, 9));
  ((1893809643, 8), (2032241758, 9), (3094883183, 9));
  ((1904742726, 8), (2062877202, 9), (3109070397, 9));
  ((1915738925, 8), (2093777159, 9), (3122687268, 9));
  ((1926798607, 8), (212490305, 8), (3135711366, 9));
  ((1937922137, 8), (2156215383, 9), (3148126171, 9));
  ((1949109883, 8), (2187674618, 9), (3159920503, 9));
  ((1960362217, 8), (2219241702, 9), (3171088152, 9));
  ((1971679512, 8), (2250879089, 9), (3181626609, 9));
  ((1983062142, 8), (2282550458, 9), (3191537476, 9));
  ((1994510485, 8), (2314221143, 9), (3200825702, 9));
  ((2006024919, 8), (2345858579, 9), (3209498711, 9));
  ((2017605828, 8), (2377432024, 9), (3217566464, 9));
  ((2029253593, 8), (2408912701, 9), (3225040888, 9));
  ((2040968602, 8), (2440273997, 9), (3231935216, 9));
  ((2052751242, 8), (2471491004, 9), (3238264206, 9));
  ((2064601905, 8), (2502540802, 9), (324404338, 8));
  ((2076520982, 8), (2533401921, 9), (3249289357, 9));
  ((2088508868, 8), (2564054983, 9), (3254018692, 9));
  ((2100565961, 8), (2594481134, 9), (3258249567, 9));
  ((2112692661, 8), (2624664049, 9), (3261998977, 9));
  ((2124889369, 8), (2654587532, 9), (3265285523, 9));
  ((2137156489, 8), (2684237019, 9), (3268127312, 9));
  ((2149494428, 8), (2713598663, 9), (3270542935, 9));
  ((2161903595, 8), (274265984, 8), (3272550716, 9));
  ((21743844, 6), (2771408205, 9), (3274169748, 9));
  ((2186937258, 8), (2799832305, 9), (3275419086, 9));
  ((2199562585, 8), (2827921576, 9), (3276317712, 9));
  ((2212260798, 8), (2855665524, 9), (3276885492, 9));
  ((2225032319, 8), (2883054536, 9), (327714223, 8));
  ((2237877571, 8), (2910079291, 9), (3277108403, 9));
  ((2250796979, 8), (293673136, 8), (3276804536, 9));
  ((2263790972, 8), (2963002374, 9), (3276252243, 9));
  ((227685998, 7), (2988884545, 9), (3275473736, 9));
  ((2290004436, 8), (3014371286, 9), (3274491293, 9));
  ((2303224776, 8), (3039455716, 9), (3273329047, 9));
  ((2316521438, 8), (3064132207, 9), (3272011464, 9));
  ((2329894862, 8), (3088396108, 9), (3270563844, 9));
  ((2343345492, 8), (311224323, 8), (3269013064, 9));
  ((2356873773, 8), (3135671, 6), (3267386569, 9));
  ((2370480154, 8), (3158678067, 9), (3265713005, 9));
  ((2384165085, 8), (3181264201, 9), (3264022535, 9));
  ((239792902, 7), (3203431001, 9), (3262346318, 9));
  ((2411772416, 8), (3225181968, 9), (3260716626, 9));
  ((242569573, 7), (3246523211, 9), (3259166327, 9));
  ((2439699424, 8), (3267462191, 9), (3257730293, 9));
  ((2453783962, 8), (3288009929, 9), (325644331, 8));
  ((2467949812, 8), (3308179823, 9), (3255341343, 9));
  ((2482197442, 8), (3327988712, 9), (325446051, 8));
  ((2496527324, 8), (3347456943, 9), (3253836999, 9));
  ((2510939933, 8), (3366607678, 9), (3253507647, 9));
  ((2525435748, 8), (3385468875, 9), (3253507842, 9));
  ((2540015247, 8), (3404071576, 9), (3253872952, 9));
  ((2554678915, 8), (3422451919, 9), (3254636047, 9));
  ((2569427238, 8), (3440648922, 9), (3255829617, 9));
  ((2584260703, 8), (3458707036, 9), (3257482619, 9));
  ((2599179803, 8), (3476673948, 9), (325962198, 8));
  ((2614185032, 8), (3494601813, 9), (3262270745, 9));
  ((2629276887, 8), (3512546025, 9), (3265448466, 9));
  ((2644455868, 8), (3530566508, 9), (3269169171, 9));
  ((2659722478, 8), (3548725043, 9), (3273442951, 9));
  ((2675077224, 8), (3567087507, 9), (3278272941, 9));
  ((2690520613, 8), (358571971, 8), (3283658191, 9));
  ((2706053158, 8), (3604691661, 9), (3289588751, 9));
  ((2721675373, 8), (3624071623, 9), (3296050158, 9));
  ((2737387777, 8), (3643930248, 9), (33030187, 7));
  ((2753190889, 8), (366433584, 8), (3310464852, 9));
  ((2769085233, 8), (3685355578, 9), (3318351337, 9));
  ((2785071337, 8), (3707054191, 9), (3326633605, 9));
  ((2801149729, 8), (3729493098, 9), (3335260012, 9));
  ((2817320943, 8), (3752729561, 9), (3344172107, 9));
  ((2833585514, 8), (3776815875, 9), (3353305033, 9));
  ((2849943982, 8), (3801798606, 9), (3362588039, 9));
  ((2866396888, 8), (3827717901, 9), (3371945091, 9));
  ((2882944778, 8), (3854606875, 9), (3381295571, 9));
  ((28995882, 6), (3882491094, 9), (3390555052, 9));
  ((2916327705, 8), (3911388161, 9), (339963613, 8));
  ((2933163849, 8), (394130741, 8), (3408449306, 9));
  ((2950097188, 8), (3972249721, 9), (341690389, 8));
  ((2967128285, 8), (4004207442, 9), (3424908914, 9));
  ((2984257704, 8), (4037164424, 9), (343237404, 8));
  ((3001486011, 8), (4071096176, 9), (343921045, 8));
  ((3018813779, 8), (4105970107, 9), (3445331693, 9));
  ((3036241581, 8), (414174587, 8), (3450654487, 9));
  ((3053769995, 8), (4178375791, 9), (3455099462, 9));
  ((3071399602, 8), (4215805369, 9), (3458591836, 9));
  ((3089130985, 8), (4253973832, 9), (3461062018, 9));
  ((3106964733, 8), (4292814757, 9), (3462446128, 9));
  ((3124901436, 8), (4332256711, 9), (3462686442, 9));
  ((3142941689, 8), (4372223936, 9), (346173175, 8));
  ((316108609, 7), (4412637038, 9), (3459537639, 9));
  ((3179335239, 8), (445341369, 8), (3456066688, 9));
  ((3197689741, 8), (4494469327, 9), (3451288593, 9));
  ((3216150206, 8), (4535717838, 9), (3445180218, 9));
  ((3234717243, 8), (4577072232, 9), (3437725573, 9));
  ((325339147, 7), (4618445285, 9), (3428915736, 9));
  ((3272173504, 8), (4659750158, 9), (3418748712, 9));
  ((3291063968, 8), (4700900977, 9), (3407229242, 9));
  ((3310063487, 8), (4741813383, 9), (3394368562, 9));
  ((3329172692, 8), (4782405035, 9), (3380184128, 9));
  ((3348392216, 8), (4822596075, 9), (3364699297, 9));
  ((3367722695, 8), (4862309551, 9), (3347942987, 9));
  ((338716477, 7), (4901471794, 9), (3329949303, 9));
  ((3406719086, 8), (4940012749, 9), (3310757151, 9));
  ((342638629, 7), (4977866269, 9), (3290409834, 9));
  ((3446167034, 8), (5014970359, 9), (3268954638, 9));
  ((3466061973, 8), (5051267379, 9), (3246442408, 9));
  ((3486071767, 8), (508670421, 8), (322292713, 8));
  ((3506197079, 8), (5121232379, 9), (3198465504, 9));
  ((3526438576, 8), (515480814, 8), (3173116528, 9));
  ((3546796928, 8), (5187392531, 9), (3146941084, 9));
  ((356727281, 7), (5218951384, 9), (3120001539, 9));
  ((3587866901, 8), (5249455316, 9), (3092361353, 9));
  ((3608579883, 8), (5278879681, 9), (3064084703, 9));
  ((3629412442, 8), (53072045, 7), (3035236122, 9));
  ((3650365268, 8), (5334414362, 9), (3005880155, 9));
  ((3671439057, 8), (5360498307, 9), (2976081035, 9));
  ((3692634506, 8), (5385449684, 9), (2945902376, 9));
  ((3713952318, 8), (5409265993, 9), (2915406887, 9));
  ((3735393198, 8), (5431948716, 9), (2884656108, 9));
  ((3756957859, 8), (5453503118, 9), (2853710164, 9));
  ((3778647013, 8), (547393806, 8), (2822627545, 9));
  ((380046138, 7), (549326578, 8), (2791464906, 9));
  ((3822401683, 8), (551150168, 8), (2760276883, 9));
  ((3844468649, 8), (55286641, 7), (2729115941, 9));
  ((3866663009, 8), (5544774096, 9), (2698032233, 9));
  ((3888985498, 8), (5559855204, 9), (2667073485, 9));
  ((3911436856, 8), (5573933211, 9), (26362849, 7));
  ((3934017828, 8), (5587035926, 9), (2605709079, 9));
  ((395672916, 7), (5599192953, 9), (2575385965, 9));
  ((3979571607, 8), (5610435461, 9), (2545352799, 9));
  ((4002545925, 8), (5620795969, 9), (25156441, 7))].

(** nidn/materials/data/zinc_oxide.csv, lines 2-612 *)
Definition zinc_oxide : list line :=
 [((21, 2), (1417, 3), (3, 3));
  ((22, 2), (1418, 3), (3, 3));
  ((23, 2), (1421, 3), (3, 3));
  ((24, 2), (1425, 3), (3, 3));
  ((25, 2), (143, 2), (4, 3));
  ((26, 2), (1436, 3), (4, 3));
  ((27, 2), (1444, 3), (4, 3));
  ((28, 2), (1451, 3), (5, 3));
  ((29, 2), (1459, 3), (5, 3));
  ((3, 1), (1469, 3), (5, 3));
  ((31, 2), (1476, 3), (6, 3));
  ((32, 2), (1486, 3), (6, 3));
  ((33, 2), (1499, 3), (7, 3));
  ((34, 2), (1508, 3), (7, 3));
  ((35, 2), (1523, 3), (8, 3));
  ((36, 2), (1565, 3), (1, 2));
  ((37, 2), (1627, 3), (9, 3));
  ((38, 2), (1614, 3), (6, 3));
  ((39, 2), (1572, 3), (6, 3));
  ((4, 1), (1557, 3), (6, 3));
  ((41, 2), (155, 2), (6, 3));
  ((42, 2), (1547, 3), (6, 3));
  ((43, 2), (1546, 3), (6, 3));
  ((44, 2), (1547, 3), (7, 3));
  ((45, 2), (1548, 3), (7, 3));
  ((46, 2), (155, 2), (7, 3));
  ((47, 2), (1553, 3), (7, 3));
  ((48, 2), (1556, 3), (8, 3));
  ((49, 2), (1559, 3), (8, 3));
  ((5, 1), (156, 2), (8, 3));
  ((51, 2), (1561, 3), (8, 3));
  ((52, 2), (1563, 3), (8, 3));
  ((53, 2), (1566, 3), (9, 3));
  ((5402, 4), (1568, 3), (9, 3));
  ((55, 2), (157, 2), (9, 3));
  ((56, 2), (1571, 3), (9, 3));
  ((57, 2), (1573, 3), (9, 3));
  ((58, 2), (1575, 3), (1, 2));
  ((59, 2), (1577, 3), (1, 2));
  ((6, 1), (1579, 3), (1, 2));
  ((61, 2), (1581, 3), (1, 2));
  ((62, 2), (1583, 3), (1, 2));
  ((63, 2), (1584, 3), (1, 2));
  ((64, 2), (1586, 3), (11, 3));
  ((65, 2), (1587, 3), (11, 3));
  ((66, 2), (1588, 3), (11, 3));
  ((67, 2), (159, 2), (11, 3));
  ((68, 2), (1592, 3), (11, 3));
  ((69, 2), (1594, 3), (12, 3));
  ((7, 1), (1596, 3), (12, 3));
  ((71, 2), (1597, 3), (12, 3));
  ((72, 2), (1599, 3), (12, 3));
  ((73, 2), (1601, 3), (12, 3));
  ((74, 2), (1602, 3), (13, 3));
  ((75, 2), (1604, 3), (13, 3));
  ((76, 2), (1606, 3), (13, 3));
  ((77, 2), (1608, 3), (13, 3));
  ((78, 2), (1609, 3), (14, 3));
  ((79, 2), (161, 2), (14, 3));
  ((8, 1), (1612, 3), (14, 3));
  ((81, 2), (1612, 3), (14, 3));
  ((82, 2), (1614, 3), (14, 3));
  ((83, 2), (1616, 3), (15, 3));
  ((84, 2), (1617, 3), (15, 3));
  ((85, 2), (1619, 3), (15, 3));
  ((86, 2), (1622, 3), (16, 3));
  ((87, 2), (1624, 3), (16, 3));
  ((88, 2), (1627, 3), (16, 3));
  ((89, 2), (163, 2), (17, 3));
  ((9, 1), (1633, 3), (17, 3));
  ((91, 2), (1636, 3), (17, 3));
  ((92, 2), (1638, 3), (17, 3));
  ((93, 2), (1641, 3), (17, 3));
  ((94, 2), (1643, 3), (18, 3));
  ((95, 2), (1646, 3), (18, 3));
  ((96, 2), (1648, 3), (18, 3));
  ((97, 2), (165, 2), (18, 3));
  ((98, 2), (1652, 3), (18, 3));
  ((99, 2), (1654, 3), (18, 3));
  ((1, 0), (1656, 3), (19, 3));
  ((101, 2), (1658, 3), (19, 3));
  ((102, 2), (1659, 3), (19, 3));
  ((103, 2), (1662, 3), (19, 3));
  ((104, 2), (1663, 3), (19, 3));
  ((105, 2), (1664, 3), (19, 3));
  ((106, 2), (1666, 3), (19, 3));
  ((107, 2), (1668, 3), (2, 2));
  ((108, 2), (1669, 3), (2, 2));
  ((109, 2), (1671, 3), (2, 2));
  ((11, 1), (1672, 3), (2, 2));
  ((111, 2), (1673, 3), (2, 2));
  ((112, 2), (1675, 3), (2, 2));
  ((113, 2), (1678, 3), (21, 3));
  ((114, 2), (168, 2), (21, 3));
  ((115, 2), (1681, 3), (21, 3));
  ((116, 2), (1682, 3), (21, 3));
  ((117, 2), (1683, 3), (21, 3));
  ((118, 2), (1684, 3), (21, 3));
  ((119, 2), (1685, 3), (21, 3));
  ((12, 1), (1687, 3), (21, 3));
  ((121, 2), (1688, 3), (21, 3));
  ((122, 2), (1689, 3), (21, 3));
  ((123, 2), (169, 2), (21, 3));
  ((124, 2), (1691, 3), (21, 3));
  ((125, 2), (1692, 3), (21, 3));
  ((126, 2), (1693, 3), (21, 3));
  ((127, 2), (1694, 3), (22, 3));
  ((128, 2), (1695, 3), (22, 3));
  ((129, 2), (1695, 3), (22, 3));
  ((13, 1), (1696, 3), (22, 3));
  ((131, 2), (1697, 3), (22, 3));
  ((132, 2), (1697, 3), (22, 3));
  ((133, 2), (1698, 3), (22, 3));
  ((134, 2), (1699, 3), (22, 3));
  ((135, 2), (17, 1), (22, 3));
  ((136, 2), (1701, 3), (22, 3));
  ((137, 2), (1701, 3), (22, 3));
  ((138, 2), (1702, 3), (22, 3));
  ((139, 2), (1702, 3), (22, 3));
  ((14, 1), (1703, 3), (22, 3));
  ((141, 2), (1704, 3), (22, 3));
  ((142, 2), (1704, 3), (22, 3));
  ((143, 2), (1705, 3), (23, 3));
  ((144, 2), (1706, 3), (23, 3));
  ((145, 2), (1707, 3), (23, 3));
  ((146, 2), (1707, 3), (23, 3));
  ((147, 2), (1708, 3), (23, 3));
  ((148, 2), (1708, 3), (23, 3));
  ((149, 2), (1709, 3), (23, 3));
  ((15, 1), (1709, 3), (23, 3));
  ((151, 2), (171, 2), (23, 3));
  ((152, 2), (1711, 3), (23, 3));
  ((153, 2), (1709, 3), (23, 3));
  ((154, 2), (1709, 3), (23, 3));
  ((155, 2), (1712, 3), (23, 3));
  ((156, 2), (1713, 3), (23, 3));
  ((157, 2), (1713, 3), (23, 3));
  ((158, 2), (1712, 3), (23, 3));
  ((159, 2), (1712, 3), (24, 3));
  ((16, 1), (1714, 3), (24, 3));
  ((161, 2), (1714, 3), (24, 3));
  ((162, 2), (1714, 3), (24, 3));
  ((163, 2), (1715, 3), (24, 3));
  ((164, 2), (1716, 3), (24, 3));
  ((165, 2), (1716, 3), (24, 3));
  ((166, 2), (1717, 3), (24, 3));
  ((167, 2), (1717, 3), (24, 3));
  ((168, 2), (1717, 3), (24, 3));
  ((169, 2), (1717, 3), (24, 3));
  ((17, 1), (1718, 3), (24, 3));
  ((171, 2), (1718, 3), (24, 3));
  ((172, 2), (1719, 3), (24, 3));
  ((173, 2), (172, 2), (24, 3));
  ((174, 2), (172, 2), (24, 3));
  ((175, 2), (1721, 3), (24, 3));
  ((176, 2), (1721, 3), (24, 3));
  ((177, 2), (1722, 3), (24, 3));
  ((178, 2), (1722, 3), (24, 3));
  ((179, 2), (1723, 3), (24, 3));
  ((18, 1), (1722, 3), (24, 3));
  ((181, 2), (172, 2), (24, 3));
  ((182, 2), (1721, 3), (25, 3));
  ((183, 2), (1723, 3), (25, 3));
  ((184, 2), (1725, 3), (25, 3));
  ((185, 2), (1724, 3), (24, 3));
  ((186, 2), (1722, 3), (24, 3));
  ((187, 2), (1722, 3), (25, 3));
  ((188, 2), (1723, 3), (25, 3));
  ((189, 2), (1724, 3), (25, 3));
  ((19, 1), (1725, 3), (25, 3));
  ((191, 2), (1725, 3), (25, 3));
  ((192, 2), (1726, 3), (25, 3));
  ((193, 2), (1726, 3), (25, 3));
  ((194, 2), (1727, 3), (25, 3));
  ((195, 2), (1728, 3), (25, 3));
  ((196, 2), (1728, 3), (25, 3));
  ((197, 2), (1728, 3), (25, 3));
  ((198, 2), (1728, 3), (25, 3));
  ((199, 2), (1728, 3), (25, 3));
  ((2, 0), (1728, 3), (25, 3));
  ((201, 2), (1728, 3), (25, 3));
  ((202, 2), (1728, 3), (26, 3));
  ((203, 2), (1729, 3), (26, 3));
  ((204, 2), (1729, 3), (26, 3));
  ((205, 2), (173, 2), (26, 3));
  ((206, 2), (173, 2), (26, 3));
  ((207, 2), (173, 2), (26, 3));
  ((208, 2), (173, 2), (26, 3));
  ((209, 2), (1731, 3), (26, 3));
  ((21, 1), (173, 2), (26, 3));
  ((211, 2), (173, 2), (26, 3));
  ((212, 2), (1731, 3), (26, 3));
  ((213, 2), (1731, 3), (26, 3));
  ((214, 2), (1732, 3), (26, 3));
  ((215, 2), (1732, 3), (26, 3));
  ((216, 2), (1732, 3), (26, 3));
  ((217, 2), (1732, 3), (26, 3));
  ((218, 2), (1733, 3), (26, 3));
  ((219, 2), (1733, 3), (26, 3));
  ((22, 1), (1733, 3), (26, 3));
  ((221, 2), (1733, 3), (26, 3));
  ((222, 2), (1733, 3), (26, 3));
  ((223, 2), (1733, 3), (26, 3));
  ((224, 2), (1734, 3), (26, 3));
  ((225, 2), (1734, 3), (26, 3));
  ((226, 2), (1734, 3), (26, 3));
  ((227, 2), (1734, 3), (26, 3));
  ((228, 2), (1734, 3), (26, 3));
  ((229, 2), (1734, 3), (27, 3));
  ((23, 1), (1735, 3), (27, 3));
  ((231, 2), (1735, 3), (27, 3));
  ((232, 2), (1735, 3), (27, 3));
  ((233, 2), (1735, 3), (27, 3));
  ((234, 2), (1736, 3), (27, 3));
  ((235, 2), (1736, 3), (27, 3));
  ((236, 2), (1736, 3), (27, 3));
  ((237, 2), (1736, 3), (27, 3));
  ((238, 2), (1736, 3), (27, 3));
  ((239, 2), (1737, 3), (27, 3));
  ((24, 1), (1737, 3), (27, 3));
  ((241, 2), (1738, 3), (27, 3));
  ((242, 2), (1738, 3), (27, 3));
  ((243, 2), (1738, 3), (27, 3));
  ((244, 2), (1738, 3), (27, 3));
  ((245, 2), (1738, 3), (27, 3));
  ((246, 2), (1739, 3), (27, 3));
  ((247, 2), (1739, 3), (27, 3));
  ((248, 2), (1739, 3), (27, 3));
  ((249, 2), (1739, 3), (27, 3));
  ((25, 1), (174, 2), (28, 3));
  ((25063, 4), (1742, 3), (28, 3));
  ((25126, 4), (1745, 3), (28, 3));
  ((25189, 4), (1743, 3), (27, 3));
  ((25253, 4), (1745, 3), (27, 3));
  ((25316, 4), (1745, 3), (27, 3));
  ((25381, 4), (1745, 3), (27, 3));
  ((25445, 4), (1746, 3), (27, 3));
  ((2551, 3), (1745, 3), (26, 3));
  ((25575, 4), (1744, 3), (27, 3));
  ((25641, 4), (1745, 3), (26, 3));
  ((25707, 4), (1743, 3), (26, 3));
  ((25773, 4), (1744, 3), (26, 3));
  ((2584, 3), (1743, 3), (27, 3));
  ((25907, 4), (1747, 3), (26, 3));
  ((25974, 4), (1744, 3), (26, 3));
  ((26042, 4), (1747, 3), (26, 3));
  ((2611, 3), (1743, 3), (26, 3));
  ((26178, 4), (1746, 3), (26, 3));
  ((26247, 4), (1747, 3), (25, 3));
  ((26316, 4), (1748, 3), (25, 3));
  ((26385, 4), (1746, 3), (24, 3));
  ((26455, 4), (1745, 3), (25, 3));
  ((26525, 4), (1746, 3), (24, 3));
  ((26596, 4), (1742, 3), (24, 3));
  ((26667, 4), (1744, 3), (25, 3));
  ((26738, 4), (1748, 3), (24, 3));
  ((2681, 3), (1747, 3), (23, 3));
  ((26882, 4), (1745, 3), (22, 3));
  ((26954, 4), (1739, 3), (21, 3));
  ((27027, 4), (1735, 3), (21, 3));
  ((271, 2), (1734, 3), (22, 3));
  ((27174, 4), (1734, 3), (23, 3));
  ((27248, 4), (1735, 3), (22, 3));
  ((27322, 4), (1732, 3), (22, 3));
  ((27397, 4), (1733, 3), (22, 3));
  ((27473, 4), (1732, 3), (22, 3));
  ((27548, 4), (1731, 3), (22, 3));
  ((27624, 4), (173, 2), (21, 3));
  ((27701, 4), (1726, 3), (22, 3));
  ((27778, 4), (1726, 3), (22, 3));
  ((27855, 4), (1723, 3), (22, 3));
  ((27933, 4), (1725, 3), (23, 3));
  ((28011, 4), (1726, 3), (22, 3));
  ((2809, 3), (1722, 3), (22, 3));
  ((28169, 4), (1719, 3), (23, 3));
  ((28249, 4), (1721, 3), (24, 3));
  ((28329, 4), (1721, 3), (24, 3));
  ((28409, 4), (1721, 3), (24, 3));
  ((2849, 3), (172, 2), (24, 3));
  ((28571, 4), (172, 2), (24, 3));
  ((28653, 4), (172, 2), (25, 3));
  ((28736, 4), (1719, 3), (25, 3));
  ((28818, 4), (1719, 3), (25, 3));
  ((28902, 4), (172, 2), (25, 3));
  ((28986, 4), (1721, 3), (25, 3));
  ((2907, 3), (1716, 3), (25, 3));
  ((29155, 4), (1716, 3), (26, 3));
  ((2924, 3), (1717, 3), (27, 3));
  ((29326, 4), (1719, 3), (27, 3));
  ((29412, 4), (1718, 3), (27, 3));
  ((29499, 4), (1717, 3), (27, 3));
  ((29586, 4), (1718, 3), (28, 3));
  ((29674, 4), (1717, 3), (28, 3));
  ((29762, 4), (1717, 3), (29, 3));
  ((29851, 4), (1721, 3), (3, 2));
  ((2994, 3), (1723, 3), (29, 3));
  ((3003, 3), (1721, 3), (29, 3));
  ((3012, 3), (1724, 3), (3, 2));
  ((30211, 4), (1723, 3), (29, 3));
  ((30303, 4), (1721, 3), (3, 2));
  ((30395, 4), (1725, 3), (3, 2));
  ((30488, 4), (1722, 3), (3, 2));
  ((30581, 4), (1726, 3), (3, 2));
  ((30675, 4), (1724, 3), (3, 2));
  ((30769, 4), (1722, 3), (3, 2));
  ((30864, 4), (1725, 3), (32, 3));
  ((3096, 3), (1726, 3), (31, 3));
  ((31056, 4), (1726, 3), (32, 3));
  ((31153, 4), (1728, 3), (31, 3));
  ((3125, 3), (1727, 3), (31, 3));
  ((31348, 4), (1728, 3), (31, 3));
  ((31447, 4), (1729, 3), (32, 3));
  ((31546, 4), (1731, 3), (32, 3));
  ((31646, 4), (173, 2), (31, 3));
  ((31746, 4), (1728, 3), (31, 3));
  ((31847, 4), (173, 2), (32, 3));
  ((31949, 4), (1732, 3), (32, 3));
  ((32051, 4), (1729, 3), (31, 3));
  ((32154, 4), (1729, 3), (32, 3));
  ((32258, 4), (1733, 3), (33, 3));
  ((32362, 4), (1733, 3), (32, 3));
  ((32468, 4), (173, 2), (32, 3));
  ((32573, 4), (1733, 3), (33, 3));
  ((3268, 3), (1735, 3), (33, 3));
  ((32787, 4), (1736, 3), (32, 3));
  ((32895, 4), (1735, 3), (32, 3));
  ((33003, 4), (1733, 3), (32, 3));
  ((33113, 4), (1737, 3), (33, 3));
  ((33223, 4), (1738, 3), (32, 3));
  ((33333, 4), (1736, 3), (32, 3));
  ((33445, 4), (1734, 3), (31, 3));
  ((33557, 4), (1733, 3), (32, 3));
  ((3367, 3), (1735, 3), (32, 3));
  ((33784, 4), (1735, 3), (32, 3));
  ((33898, 4), (1735, 3), (32, 3));
  ((34014, 4), (1732, 3), (32, 3));
  ((3413, 3), (1731, 3), (32, 3));
  ((34247, 4), (1731, 3), (33, 3));
  ((34364, 4), (1735, 3), (33, 3));
  ((34483, 4), (1734, 3), (33, 3));
  ((34602, 4), (1737, 3), (33, 3));
  ((34722, 4), (1736, 3), (33, 3));
  ((34843, 4), (1734, 3), (33, 3));
  ((34965, 4), (1732, 3), (33, 3));
  ((35088, 4), (1734, 3), (34, 3));
  ((35211, 4), (1736, 3), (35, 3));
  ((35336, 4), (174, 2), (35, 3));
  ((35461, 4), (1738, 3), (33, 3));
  ((35587, 4), (1736, 3), (34, 3));
  ((35714, 4), (1741, 3), (35, 3));
  ((35842, 4), (174, 2), (33, 3));
  ((35971, 4), (1737, 3), (34, 3));
  ((36101, 4), (1741, 3), (34, 3));
  ((36232, 4), (174, 2), (34, 3));
  ((36364, 4), (1743, 3), (34, 3));
  ((36496, 4), (1739, 3), (33, 3));
  ((3663, 3), (174, 2), (35, 3));
  ((36765, 4), (1741, 3), (34, 3));
  ((369, 2), (174, 2), (34, 3));
  ((37037, 4), (1739, 3), (34, 3));
  ((37175, 4), (174, 2), (35, 3));
  ((37313, 4), (1743, 3), (34, 3));
  ((37453, 4), (174, 2), (34, 3));
  ((37594, 4), (1741, 3), (35, 3));
  ((37736, 4), (1742, 3), (34, 3));
  ((37879, 4), (1744, 3), (34, 3));
  ((38023, 4), (1743, 3), (33, 3));
  ((38168, 4), (174, 2), (34, 3));
  ((38314, 4), (1743, 3), (34, 3));
  ((38462, 4), (1745, 3), (34, 3));
  ((3861, 3), (1742, 3), (33, 3));
  ((3876, 3), (174, 2), (34, 3));
  ((38911, 4), (1742, 3), (34, 3));
  ((39063, 4), (1744, 3), (34, 3));
  ((39216, 4), (1745, 3), (34, 3));
  ((3937, 3), (1745, 3), (34, 3));
  ((39526, 4), (1744, 3), (33, 3));
  ((39683, 4), (1744, 3), (33, 3));
  ((39841, 4), (1742, 3), (33, 3));
  ((4, 0), (1743, 3), (34, 3));
  ((40161, 4), (1745, 3), (33, 3));
  ((40323, 4), (1744, 3), (32, 3));
  ((40486, 4), (1742, 3), (32, 3));
  ((4065, 3), (1742, 3), (33, 3));
  ((40816, 4), (1743, 3), (33, 3));
  ((40984, 4), (1743, 3), (33, 3));
  ((41152, 4), (1744, 3), (33, 3));
  ((41322, 4), (1744, 3), (32, 3));
  ((41494, 4), (1742, 3), (32, 3));
  ((41667, 4), (1741, 3), (32, 3));
  ((41841, 4), (1744, 3), (33, 3));
  ((42017, 4), (1741, 3), (31, 3));
  ((42194, 4), (1742, 3), (32, 3));
  ((42373, 4), (1741, 3), (31, 3));
  ((42553, 4), (1739, 3), (32, 3));
  ((42735, 4), (1738, 3), (32, 3));
  ((42918, 4), (1739, 3), (33, 3));
  ((43103, 4), (1741, 3), (32, 3));
  ((4329, 3), (174, 2), (32, 3));
  ((43478, 4), (1738, 3), (32, 3));
  ((43668, 4), (1739, 3), (32, 3));
  ((4386, 3), (1738, 3), (32, 3));
  ((44053, 4), (1738, 3), (32, 3));
  ((44248, 4), (1738, 3), (32, 3));
  ((44444, 4), (1737, 3), (31, 3));
  ((44643, 4), (1736, 3), (32, 3));
  ((44843, 4), (1736, 3), (32, 3));
  ((45045, 4), (1734, 3), (32, 3));
  ((45249, 4), (1737, 3), (32, 3));
  ((45455, 4), (1736, 3), (32, 3));
  ((45662, 4), (1737, 3), (32, 3));
  ((45872, 4), (1737, 3), (32, 3));
  ((46083, 4), (1735, 3), (32, 3));
  ((46296, 4), (1735, 3), (32, 3));
  ((46512, 4), (1735, 3), (31, 3));
  ((46729, 4), (1732, 3), (31, 3));
  ((46948, 4), (1733, 3), (32, 3));
  ((4717, 3), (173, 2), (32, 3));
  ((47393, 4), (1731, 3), (33, 3));
  ((47619, 4), (1732, 3), (33, 3));
  ((47847, 4), (1732, 3), (32, 3));
  ((48077, 4), (1732, 3), (33, 3));
  ((48309, 4), (1733, 3), (32, 3));
  ((48544, 4), (173, 2), (33, 3));
  ((4878, 3), (1731, 3), (33, 3));
  ((4902, 3), (173, 2), (33, 3));
  ((49261, 4), (1729, 3), (33, 3));
  ((49505, 4), (1729, 3), (34, 3));
  ((49751, 4), (1729, 3), (34, 3));
  ((5, 0), (173, 2), (36, 3));
  ((50251, 4), (1734, 3), (36, 3));
  ((50505, 4), (1734, 3), (34, 3));
  ((50761, 4), (1734, 3), (33, 3));
  ((5102, 3), (1733, 3), (33, 3));
  ((51282, 4), (1731, 3), (33, 3));
  ((51546, 4), (1731, 3), (33, 3));
  ((51813, 4), (1731, 3), (33, 3));
  ((52083, 4), (173, 2), (33, 3));
  ((52356, 4), (1731, 3), (33, 3));
  ((52632, 4), (173, 2), (32, 3));
  ((5291, 3), (173, 2), (32, 3));
  ((53191, 4), (1729, 3), (32, 3));
  ((53476, 4), (1729, 3), (31, 3));
  ((53763, 4), (1726, 3), (31, 3));
  ((54054, 4), (1727, 3), (32, 3));
  ((54348, 4), (1729, 3), (32, 3));
  ((54645, 4), (1727, 3), (3, 2));
  ((54945, 4), (1725, 3), (3, 2));
  ((55249, 4), (1726, 3), (3, 2));
  ((55556, 4), (1724, 3), (3, 2));
  ((55866, 4), (1724, 3), (3, 2));
  ((5618, 3), (1723, 3), (29, 3));
  ((56497, 4), (1722, 3), (28, 3));
  ((56818, 4), (1718, 3), (27, 3));
  ((57143, 4), (1713, 3), (28, 3));
  ((57471, 4), (1713, 3), (3, 2));
  ((57803, 4), (1713, 3), (31, 3));
  ((5814, 3), (1713, 3), (32, 3));
  ((5848, 3), (1714, 3), (32, 3));
  ((58824, 4), (1716, 3), (31, 3));
  ((59172, 4), (1712, 3), (3, 2));
  ((59524, 4), (1713, 3), (31, 3));
  ((5988, 3), (1713, 3), (3, 2));
  ((60241, 4), (171, 2), (31, 3));
  ((60606, 4), (1712, 3), (31, 3));
  ((60976, 4), (1709, 3), (28, 3));
  ((6135, 3), (1706, 3), (29, 3));
  ((61728, 4), (1706, 3), (3, 2));
  ((62112, 4), (1705, 3), (3, 2));
  ((625, 2), (1702, 3), (3, 2));
  ((62893, 4), (1701, 3), (31, 3));
  ((63291, 4), (1701, 3), (31, 3));
  ((63694, 4), (1699, 3), (31, 3));
  ((64103, 4), (1702, 3), (33, 3));
  ((64516, 4), (1702, 3), (3, 2));
  ((64935, 4), (1699, 3), (3, 2));
  ((65359, 4), (1695, 3), (3, 2));
  ((65789, 4), (1695, 3), (3, 2));
  ((66225, 4), (1694, 3), (3, 2));
  ((66667, 4), (1691, 3), (31, 3));
  ((67114, 4), (1692, 3), (31, 3));
  ((67568, 4), (1688, 3), (3, 2));
  ((68027, 4), (1685, 3), (31, 3));
  ((68493, 4), (1684, 3), (31, 3));
  ((68966, 4), (1681, 3), (32, 3));
  ((69444, 4), (1683, 3), (34, 3));
  ((6993, 3), (1682, 3), (34, 3));
  ((70423, 4), (1682, 3), (34, 3));
  ((70922, 4), (1677, 3), (34, 3));
  ((71429, 4), (1679, 3), (36, 3));
  ((71942, 4), (1677, 3), (33, 3));
  ((72464, 4), (1673, 3), (34, 3));
  ((72993, 4), (167, 2), (37, 3));
  ((74074, 4), (1673, 3), (38, 3));
  ((74627, 4), (1671, 3), (35, 3));
  ((75188, 4), (1667, 3), (36, 3));
  ((75758, 4), (1666, 3), (37, 3));
  ((76336, 4), (1665, 3), (38, 3));
  ((76923, 4), (1663, 3), (37, 3));
  ((77519, 4), (1661, 3), (37, 3));
  ((78125, 4), (1659, 3), (37, 3));
  ((7874, 3), (1657, 3), (37, 3));
  ((79365, 4), (1655, 3), (39, 3));
  ((8, 0), (1654, 3), (37, 3));
  ((80645, 4), (1649, 3), (4, 2));
  ((81301, 4), (1651, 3), (42, 3));
  ((81967, 4), (1649, 3), (39, 3));
  ((82645, 4), (1644, 3), (39, 3));
  ((83333, 4), (1643, 3), (4, 2));
  ((84034, 4), (164, 2), (4, 2));
  ((84746, 4), (1638, 3), (41, 3));
  ((8547, 3), (1635, 3), (39, 3));
  ((86207, 4), (163, 2), (4, 2));
  ((86957, 4), (1627, 3), (41, 3));
  ((87719, 4), (1624, 3), (43, 3));
  ((88496, 4), (1621, 3), (43, 3));
  ((89286, 4), (1618, 3), (44, 3));
  ((9009, 3), (1615, 3), (44, 3));
  ((90909, 4), (161, 2), (45, 3));
  ((91743, 4), (1608, 3), (48, 3));
  ((92593, 4), (1605, 3), (49, 3));
  ((93458, 4), (1601, 3), (49, 3));
  ((9434, 3), (1597, 3), (5, 2));
  ((95238, 4), (1592, 3), (52, 3));
  ((96154, 4), (1588, 3), (54, 3));
  ((97087, 4), (1586, 3), (58, 3));
  ((98039, 4), (1584, 3), (57, 3));
  ((9901, 3), (1578, 3), (58, 3));
  ((10, 0), (1574, 3), (6, 2));
  ((10101, 3), (1574, 3), (62, 3));
  ((102041, 4), (1569, 3), (59, 3));
  ((103093, 4), (1562, 3), (6, 2));
  ((104167, 4), (1559, 3), (61, 3));
  ((105263, 4), (1554, 3), (59, 3));
  ((106383, 4), (1546, 3), (61, 3));
  ((107527, 4), (1541, 3), (61, 3));
  ((108696, 4), (1533, 3), (62, 3));
  ((10989, 3), (1528, 3), (66, 3));
  ((111111, 4), (1523, 3), (65, 3));
  ((11236, 3), (1515, 3), (67, 3));
  ((113636, 4), (151, 2), (69, 3));
  ((114943, 4), (1504, 3), (69, 3));
  ((116279, 4), (1499, 3), (69, 3));
  ((117647, 4), (1491, 3), (67, 3));
  ((119048, 4), (1484, 3), (66, 3));
  ((120482, 4), (1473, 3), (62, 3));
  ((121951, 4), (146, 2), (62, 3));
  ((123457, 4), (1448, 3), (62, 3));
  ((125, 1), (1436, 3), (63, 3));
  ((126582, 4), (1422, 3), (62, 3));
  ((128205, 4), (1408, 3), (63, 3));
  ((12987, 3), (1392, 3), (62, 3));
  ((131579, 4), (1375, 3), (62, 3));
  ((133333, 4), (1354, 3), (64, 3));
  ((135135, 4), (1335, 3), (69, 3));
  ((136986, 4), (1317, 3), (71, 3));
  ((138889, 4), (1296, 3), (73, 3));
  ((140845, 4), (1272, 3), (73, 3));
  ((142857, 4), (1246, 3), (76, 3));
  ((144928, 4), (1215, 3), (75, 3));
  ((147059, 4), (1183, 3), (81, 3));
  ((149254, 4), (115, 2), (83, 3));
  ((151515, 4), (1109, 3), (84, 3));
  ((153846, 4), (1063, 3), (86, 3));
  ((15625, 3), (1004, 3), (89, 3));
  ((15873, 3), (936, 3), (97, 3));
  ((16129, 3), (859, 3), (11, 2));
  ((163934, 4), (765, 3), (125, 3));
  ((166667, 4), (631, 3), (152, 3));
  ((169492, 4), (462, 3), (25, 2));
  ((172414, 4), (331, 3), (421, 3));
  ((175439, 4), (258, 3), (621, 3));
  ((178571, 4), (235, 3), (818, 3));
  ((181818, 4), (236, 3), (1001, 3));
  ((185185, 4), (254, 3), (1179, 3));
  ((188679, 4), (286, 3), (135, 2));
  ((192308, 4), (328, 3), (1522, 3));
  ((196078, 4), (384, 3), (1693, 3));
  ((20, 0), (451, 3), (1861, 3));
  ((204082, 4), (521, 3), (2026, 3));
  ((208333, 4), (587, 3), (2199, 3));
  ((212766, 4), (644, 3), (24, 1));
  ((217391, 4), (704, 3), (2659, 3));
  ((222222, 4), (797, 3), (3017, 3));
  ((227273, 4), (1021, 3), (351, 2));
  ((232558, 4), (1509, 3), (4071, 3));
  ((238095, 4), (2434, 3), (4628, 3));
  ((243902, 4), (394, 2), (4458, 3));
  ((25, 0), (4884, 3), (3404, 3));
  ((25641, 3), (509, 2), (2304, 3));
  ((263158, 4), (4985, 3), (1505, 3));
  ((27027, 3), (4644, 3), (838, 3));
  ((277778, 4), (4223, 3), (533, 3));
  ((285714, 4), (391, 2), (366, 3));
  ((294118, 4), (3646, 3), (301, 3));
  ((30303, 3), (3484, 3), (289, 3));
  ((3125, 2), (3376, 3), (256, 3));
  ((322581, 4), (3283, 3), (222, 3));
  ((333333, 4), (3193, 3), (182, 3));
  ((344828, 4), (3105, 3), (162, 3));
  ((357143, 4), (3036, 3), (147, 3));
  ((37037, 3), (2972, 3), (133, 3));
  ((384615, 4), (2915, 3), (127, 3));
  ((40, 0), (2864, 3), (127, 3));
  ((416667, 4), (283, 2), (135, 3));
  ((434783, 4), (2803, 3), (132, 3));
  ((454545, 4), (2775, 3), (129, 3));
  ((47619, 3), (2754, 3), (124, 3));
  ((50, 0), (2725, 3), (108, 3));
  ((526316, 4), (2697, 3), (109, 3));
  ((555556, 4), (2664, 3), (121, 3))].

(** The files of nidn/materials/data that match "*.csv" (material_collection.py:62;
    the folder "removed" does not), in alphabetical order; [glob] returns
    them in any order. *)
Definition shipped_lines : list (string * list line) :=
 [("aluminium_arsenide"%string, aluminium_arsenide);
  ("aluminium_nitride"%string, aluminium_nitride);
  ("aluminium_oxide"%string, aluminium_oxide);
  ("gallium_arsenide"%string, gallium_arsenide);
  ("germanium"%string, germanium);
  ("indium_arsenide"%string, indium_arsenide);
  ("silicon_nitride"%string, silicon_nitride);
  ("tantalum_pentoxide"%string, tantalum_pentoxide);
  ("titanium_oxide"%string, titanium_oxide);
  ("zinc_oxide"%string, zinc_oxide)].
Definition shipped : list mfile :=
  map (fun f => (fst f, map row_of (snd f))) shipped_lines.
