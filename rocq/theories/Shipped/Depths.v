(** Generated by tools/shipped.py from the files of /repo/tables. *)
From Coq Require Import List ZArith String.
Import ListNotations.
Local Open Scope string_scope.
Local Open Scope Z_scope.

Definition depths_D0000000000000012000 : list (Z * nat) := [
(49156, 2%nat); (49162, 2%nat); (49433, 2%nat); (49434, 2%nat); (49439, 2%nat); (49440, 2%nat); (49441, 2%nat); (49442, 2%nat); (49444, 2%nat); (49445, 2%nat);
(49446, 2%nat); (49447, 2%nat); (49448, 2%nat); (49449, 2%nat); (49450, 3%nat); (49451, 2%nat); (49452, 2%nat); (49453, 2%nat); (49455, 3%nat); (49459, 2%nat);
(49463, 2%nat); (49470, 2%nat); (49474, 2%nat); (49480, 2%nat); (49498, 2%nat); (49500, 2%nat); (49501, 3%nat); (49518, 2%nat); (49519, 2%nat); (49521, 2%nat);
(49522, 2%nat); (49528, 4%nat); (49529, 3%nat); (49530, 2%nat); (49531, 2%nat); (49602, 2%nat); (49603, 2%nat); (49604, 2%nat); (49606, 2%nat); (49645, 2%nat);
(49658, 2%nat); (49675, 2%nat); (49676, 2%nat); (49677, 2%nat); (49688, 2%nat); (49695, 2%nat); (49699, 2%nat); (49707, 2%nat); (49718, 2%nat); (49721, 3%nat);
(49724, 2%nat); (49726, 3%nat); (49727, 2%nat); (49870, 2%nat); (49942, 2%nat); (49943, 2%nat); (49944, 2%nat); (49960, 3%nat); (50435, 2%nat); (50439, 2%nat);
(50440, 2%nat); (50441, 3%nat); (50443, 2%nat); (50450, 3%nat); (50694, 2%nat); (50695, 2%nat); (50707, 2%nat); (50708, 3%nat); (50709, 2%nat); (50710, 2%nat);
(50711, 2%nat); (50712, 2%nat); (50713, 3%nat); (50945, 3%nat); (50946, 3%nat); (50947, 4%nat); (50948, 4%nat); (50949, 4%nat); (50950, 4%nat); (50951, 3%nat);
(50952, 3%nat); (50953, 3%nat); (50955, 2%nat); (50959, 2%nat); (50962, 2%nat); (50964, 3%nat); (50965, 3%nat); (50966, 2%nat); (50985, 2%nat); (50986, 2%nat);
(50987, 2%nat); (50989, 2%nat); (50992, 2%nat); (50996, 2%nat); (50997, 2%nat); (50999, 3%nat); (51000, 4%nat); (51003, 3%nat); (51024, 3%nat); (51025, 3%nat);
(51026, 3%nat); (51027, 3%nat); (51028, 3%nat); (51030, 3%nat); (51034, 3%nat); (51201, 3%nat); (51202, 3%nat); (51203, 3%nat); (51204, 3%nat); (51205, 4%nat);
(51207, 3%nat); (51208, 4%nat); (51209, 4%nat); (51210, 2%nat); (51457, 3%nat); (51458, 3%nat); (51459, 3%nat); (51460, 3%nat); (51461, 3%nat); (51462, 3%nat);
(51463, 3%nat); (51464, 3%nat); (51467, 3%nat); (51468, 3%nat); (51469, 3%nat); (51470, 3%nat); (51471, 3%nat); (51472, 3%nat); (51473, 3%nat); (51474, 3%nat);
(51475, 3%nat); (51476, 3%nat); (51496, 2%nat); (51498, 3%nat); (51506, 3%nat); (51507, 3%nat); (51508, 3%nat); (51509, 3%nat); (51516, 4%nat); (51517, 5%nat);
(51518, 5%nat); (51519, 5%nat); (51520, 5%nat); (51521, 5%nat); (51522, 5%nat); (51650, 3%nat); (51651, 3%nat); (51652, 3%nat); (51654, 3%nat); (51713, 4%nat);
(51714, 4%nat); (51715, 4%nat); (51716, 4%nat); (51717, 4%nat); (51718, 4%nat); (51719, 4%nat); (51720, 2%nat); (51721, 2%nat); (51722, 2%nat); (51726, 3%nat);
(51727, 3%nat); (51728, 3%nat); (51731, 2%nat); (51732, 2%nat); (51735, 3%nat); (51736, 3%nat); (51738, 2%nat); (51742, 2%nat); (51762, 3%nat); (51764, 2%nat);
(51767, 3%nat); (51905, 3%nat); (51906, 3%nat); (51907, 3%nat); (51908, 3%nat); (51938, 2%nat); (51969, 3%nat); (51970, 3%nat); (51973, 2%nat); (51975, 2%nat);
(51976, 2%nat); (51977, 3%nat); (52161, 2%nat); (52225, 3%nat); (52226, 3%nat); (52227, 4%nat); (52228, 4%nat); (52229, 4%nat); (52230, 3%nat); (52231, 4%nat);
(52238, 2%nat); (52239, 2%nat); (52240, 3%nat); (52241, 2%nat); (52242, 3%nat); (52243, 4%nat); (52244, 4%nat); (52245, 4%nat); (52246, 4%nat); (52247, 4%nat);
(52248, 5%nat); (52249, 5%nat); (52250, 2%nat); (52251, 4%nat); (52252, 2%nat); (52269, 2%nat); (52274, 2%nat); (52275, 2%nat); (52276, 2%nat); (52277, 2%nat);
(52282, 2%nat); (52283, 2%nat); (52285, 3%nat); (52424, 3%nat); (52425, 3%nat); (52426, 3%nat); (52427, 3%nat); (52428, 4%nat); (52431, 4%nat); (52432, 2%nat);
(52433, 3%nat); (52434, 4%nat); (52435, 3%nat); (52436, 2%nat); (52512, 2%nat); (52522, 2%nat); (52993, 2%nat); (52994, 2%nat); (53249, 2%nat); (53270, 2%nat);
(53298, 2%nat); (53300, 2%nat); (53761, 3%nat); (53763, 3%nat); (53764, 3%nat); (54532, 3%nat); (59393, 2%nat)].

Definition depths_D0000000000000013000 : list (Z * nat) := [
(49156, 2%nat); (49162, 2%nat); (49433, 2%nat); (49434, 2%nat); (49439, 2%nat); (49440, 2%nat); (49441, 2%nat); (49442, 2%nat); (49443, 2%nat); (49444, 2%nat);
(49445, 2%nat); (49446, 2%nat); (49447, 2%nat); (49448, 2%nat); (49449, 2%nat); (49450, 3%nat); (49451, 2%nat); (49452, 2%nat); (49453, 2%nat); (49455, 3%nat);
(49459, 2%nat); (49463, 2%nat); (49470, 2%nat); (49474, 2%nat); (49480, 2%nat); (49498, 2%nat); (49500, 2%nat); (49501, 3%nat); (49518, 2%nat); (49519, 2%nat);
(49521, 2%nat); (49522, 2%nat); (49528, 4%nat); (49529, 3%nat); (49530, 2%nat); (49531, 2%nat); (49602, 2%nat); (49603, 2%nat); (49604, 2%nat); (49606, 2%nat);
(49645, 2%nat); (49658, 2%nat); (49675, 2%nat); (49676, 2%nat); (49677, 2%nat); (49688, 2%nat); (49695, 2%nat); (49699, 2%nat); (49707, 2%nat); (49718, 2%nat);
(49721, 3%nat); (49724, 2%nat); (49726, 3%nat); (49727, 2%nat); (49870, 2%nat); (49942, 2%nat); (49943, 2%nat); (49944, 2%nat); (49960, 3%nat); (50435, 2%nat);
(50439, 2%nat); (50440, 2%nat); (50441, 3%nat); (50443, 2%nat); (50450, 3%nat); (50694, 2%nat); (50695, 2%nat); (50707, 2%nat); (50708, 3%nat); (50709, 2%nat);
(50710, 2%nat); (50711, 2%nat); (50712, 2%nat); (50713, 3%nat); (50945, 3%nat); (50946, 3%nat); (50947, 4%nat); (50948, 4%nat); (50949, 4%nat); (50950, 4%nat);
(50951, 3%nat); (50952, 3%nat); (50953, 3%nat); (50955, 2%nat); (50959, 2%nat); (50962, 2%nat); (50964, 3%nat); (50965, 3%nat); (50966, 2%nat); (50985, 2%nat);
(50986, 2%nat); (50987, 2%nat); (50989, 2%nat); (50992, 2%nat); (50996, 2%nat); (50997, 2%nat); (50999, 3%nat); (51000, 4%nat); (51003, 3%nat); (51024, 3%nat);
(51025, 3%nat); (51026, 3%nat); (51027, 3%nat); (51028, 3%nat); (51030, 3%nat); (51034, 3%nat); (51201, 3%nat); (51202, 3%nat); (51203, 3%nat); (51204, 3%nat);
(51205, 4%nat); (51207, 3%nat); (51208, 4%nat); (51209, 4%nat); (51210, 2%nat); (51457, 3%nat); (51458, 3%nat); (51459, 3%nat); (51460, 3%nat); (51461, 3%nat);
(51462, 3%nat); (51463, 3%nat); (51464, 3%nat); (51467, 3%nat); (51468, 3%nat); (51469, 3%nat); (51470, 3%nat); (51471, 3%nat); (51472, 3%nat); (51473, 3%nat);
(51474, 3%nat); (51475, 3%nat); (51476, 3%nat); (51496, 2%nat); (51498, 3%nat); (51506, 3%nat); (51507, 3%nat); (51508, 3%nat); (51509, 3%nat); (51516, 4%nat);
(51517, 5%nat); (51518, 5%nat); (51519, 5%nat); (51520, 5%nat); (51521, 5%nat); (51522, 5%nat); (51650, 3%nat); (51651, 3%nat); (51652, 3%nat); (51654, 3%nat);
(51713, 4%nat); (51714, 4%nat); (51715, 4%nat); (51716, 4%nat); (51717, 4%nat); (51718, 4%nat); (51719, 4%nat); (51720, 2%nat); (51721, 2%nat); (51722, 2%nat);
(51726, 3%nat); (51727, 3%nat); (51728, 3%nat); (51731, 2%nat); (51732, 2%nat); (51735, 3%nat); (51736, 3%nat); (51738, 2%nat); (51742, 2%nat); (51762, 3%nat);
(51764, 2%nat); (51767, 3%nat); (51905, 3%nat); (51906, 3%nat); (51907, 3%nat); (51908, 3%nat); (51938, 2%nat); (51969, 3%nat); (51970, 3%nat); (51973, 2%nat);
(51975, 2%nat); (51976, 2%nat); (51977, 3%nat); (52161, 2%nat); (52225, 3%nat); (52226, 3%nat); (52227, 4%nat); (52228, 4%nat); (52229, 4%nat); (52230, 3%nat);
(52231, 4%nat); (52238, 2%nat); (52239, 2%nat); (52240, 3%nat); (52241, 2%nat); (52242, 3%nat); (52243, 4%nat); (52244, 4%nat); (52245, 4%nat); (52246, 4%nat);
(52247, 4%nat); (52248, 5%nat); (52249, 5%nat); (52250, 2%nat); (52251, 4%nat); (52252, 2%nat); (52269, 2%nat); (52274, 2%nat); (52275, 2%nat); (52276, 2%nat);
(52277, 2%nat); (52282, 2%nat); (52283, 2%nat); (52285, 3%nat); (52424, 3%nat); (52425, 3%nat); (52426, 3%nat); (52427, 3%nat); (52428, 4%nat); (52431, 4%nat);
(52432, 2%nat); (52433, 3%nat); (52434, 4%nat); (52435, 3%nat); (52436, 2%nat); (52512, 2%nat); (52522, 2%nat); (52993, 2%nat); (52994, 2%nat); (53249, 2%nat);
(53270, 2%nat); (53298, 2%nat); (53300, 2%nat); (53761, 3%nat); (53763, 3%nat); (53764, 3%nat); (54532, 3%nat); (59393, 2%nat)].

Definition depths_D0000000000000014000 : list (Z * nat) := [
(49156, 2%nat); (49162, 2%nat); (49422, 2%nat); (49433, 2%nat); (49434, 2%nat); (49435, 3%nat); (49436, 2%nat); (49439, 2%nat); (49440, 2%nat); (49441, 2%nat);
(49442, 2%nat); (49443, 2%nat); (49444, 2%nat); (49445, 2%nat); (49446, 2%nat); (49447, 2%nat); (49448, 2%nat); (49449, 2%nat); (49450, 3%nat); (49451, 2%nat);
(49452, 2%nat); (49453, 2%nat); (49455, 3%nat); (49459, 2%nat); (49463, 2%nat); (49470, 2%nat); (49474, 2%nat); (49480, 2%nat); (49483, 2%nat); (49498, 2%nat);
(49500, 2%nat); (49501, 3%nat); (49518, 2%nat); (49519, 2%nat); (49521, 2%nat); (49522, 2%nat); (49528, 4%nat); (49529, 3%nat); (49530, 2%nat); (49531, 2%nat);
(49602, 2%nat); (49603, 2%nat); (49604, 2%nat); (49606, 2%nat); (49645, 2%nat); (49658, 2%nat); (49675, 2%nat); (49676, 2%nat); (49677, 2%nat); (49688, 2%nat);
(49695, 2%nat); (49699, 2%nat); (49707, 2%nat); (49718, 2%nat); (49721, 3%nat); (49724, 2%nat); (49726, 3%nat); (49727, 2%nat); (49748, 3%nat); (49749, 2%nat);
(49870, 2%nat); (49942, 2%nat); (49943, 2%nat); (49944, 2%nat); (49960, 3%nat); (50435, 2%nat); (50439, 2%nat); (50440, 2%nat); (50441, 3%nat); (50443, 2%nat);
(50450, 3%nat); (50694, 2%nat); (50695, 2%nat); (50707, 2%nat); (50708, 3%nat); (50709, 2%nat); (50710, 2%nat); (50711, 2%nat); (50712, 2%nat); (50713, 3%nat);
(50945, 3%nat); (50946, 3%nat); (50947, 4%nat); (50948, 4%nat); (50949, 4%nat); (50950, 4%nat); (50951, 3%nat); (50952, 3%nat); (50953, 3%nat); (50955, 2%nat);
(50959, 2%nat); (50962, 2%nat); (50964, 3%nat); (50965, 3%nat); (50966, 2%nat); (50985, 2%nat); (50986, 2%nat); (50987, 2%nat); (50989, 2%nat); (50992, 2%nat);
(50996, 2%nat); (50997, 2%nat); (50999, 3%nat); (51000, 4%nat); (51003, 3%nat); (51005, 3%nat); (51006, 3%nat); (51015, 3%nat); (51017, 4%nat); (51023, 3%nat);
(51024, 3%nat); (51025, 3%nat); (51026, 3%nat); (51027, 3%nat); (51028, 3%nat); (51030, 3%nat); (51034, 3%nat); (51035, 3%nat); (51036, 3%nat); (51040, 4%nat);
(51201, 3%nat); (51202, 3%nat); (51203, 3%nat); (51204, 3%nat); (51205, 4%nat); (51207, 3%nat); (51208, 2%nat); (51209, 4%nat); (51210, 2%nat); (51211, 2%nat);
(51212, 2%nat); (51213, 3%nat); (51457, 3%nat); (51458, 3%nat); (51459, 3%nat); (51460, 3%nat); (51461, 3%nat); (51462, 3%nat); (51463, 3%nat); (51464, 3%nat);
(51467, 3%nat); (51468, 3%nat); (51469, 3%nat); (51470, 3%nat); (51471, 3%nat); (51472, 3%nat); (51473, 3%nat); (51474, 3%nat); (51475, 3%nat); (51476, 3%nat);
(51496, 3%nat); (51498, 3%nat); (51506, 3%nat); (51507, 3%nat); (51508, 3%nat); (51509, 3%nat); (51510, 2%nat); (51516, 4%nat); (51517, 5%nat); (51518, 5%nat);
(51519, 5%nat); (51520, 5%nat); (51521, 5%nat); (51522, 5%nat); (51650, 3%nat); (51651, 3%nat); (51652, 3%nat); (51654, 3%nat); (51713, 4%nat); (51714, 4%nat);
(51715, 4%nat); (51716, 4%nat); (51717, 4%nat); (51718, 4%nat); (51719, 4%nat); (51720, 2%nat); (51721, 2%nat); (51722, 2%nat); (51726, 3%nat); (51727, 3%nat);
(51728, 3%nat); (51731, 2%nat); (51732, 2%nat); (51735, 3%nat); (51736, 3%nat); (51738, 2%nat); (51739, 2%nat); (51742, 2%nat); (51762, 3%nat); (51764, 2%nat);
(51767, 3%nat); (51772, 2%nat); (51905, 3%nat); (51906, 3%nat); (51907, 3%nat); (51908, 3%nat); (51938, 2%nat); (51969, 3%nat); (51970, 3%nat); (51973, 2%nat);
(51975, 2%nat); (51976, 2%nat); (51977, 3%nat); (52161, 2%nat); (52225, 3%nat); (52226, 3%nat); (52227, 4%nat); (52228, 4%nat); (52229, 4%nat); (52230, 3%nat);
(52231, 4%nat); (52238, 2%nat); (52239, 2%nat); (52240, 3%nat); (52241, 2%nat); (52242, 3%nat); (52243, 4%nat); (52244, 4%nat); (52245, 4%nat); (52246, 4%nat);
(52247, 4%nat); (52248, 5%nat); (52249, 5%nat); (52250, 2%nat); (52251, 4%nat); (52252, 2%nat); (52269, 2%nat); (52274, 2%nat); (52275, 2%nat); (52276, 2%nat);
(52277, 2%nat); (52282, 2%nat); (52283, 2%nat); (52285, 3%nat); (52294, 2%nat); (52424, 3%nat); (52425, 3%nat); (52426, 3%nat); (52427, 3%nat); (52428, 4%nat);
(52431, 4%nat); (52432, 2%nat); (52433, 3%nat); (52434, 4%nat); (52435, 3%nat); (52436, 2%nat); (52512, 2%nat); (52522, 2%nat); (52993, 2%nat); (52994, 2%nat);
(52995, 2%nat); (53249, 2%nat); (53268, 2%nat); (53269, 2%nat); (53270, 2%nat); (53274, 3%nat); (53278, 3%nat); (53279, 4%nat); (53280, 4%nat); (53281, 4%nat);
(53282, 5%nat); (53283, 5%nat); (53284, 5%nat); (53285, 5%nat); (53286, 5%nat); (53287, 5%nat); (53288, 4%nat); (53298, 2%nat); (53300, 2%nat); (53761, 3%nat);
(53763, 3%nat); (53764, 3%nat); (54532, 3%nat); (59393, 2%nat); (59397, 2%nat); (59399, 2%nat); (59400, 2%nat); (59401, 2%nat); (59402, 2%nat)].

Definition depths_D0000000000000015000 : list (Z * nat) := [
(49156, 2%nat); (49162, 2%nat); (49422, 2%nat); (49433, 2%nat); (49434, 2%nat); (49435, 3%nat); (49436, 2%nat); (49439, 2%nat); (49440, 2%nat); (49441, 2%nat);
(49442, 2%nat); (49443, 2%nat); (49444, 2%nat); (49445, 2%nat); (49446, 2%nat); (49447, 2%nat); (49448, 2%nat); (49449, 2%nat); (49450, 3%nat); (49451, 2%nat);
(49452, 2%nat); (49453, 2%nat); (49455, 3%nat); (49459, 2%nat); (49463, 2%nat); (49466, 3%nat); (49467, 2%nat); (49470, 2%nat); (49474, 2%nat); (49480, 2%nat);
(49498, 2%nat); (49500, 2%nat); (49501, 3%nat); (49518, 2%nat); (49519, 2%nat); (49521, 2%nat); (49522, 2%nat); (49528, 4%nat); (49529, 3%nat); (49530, 2%nat);
(49531, 2%nat); (49675, 2%nat); (49676, 2%nat); (49677, 2%nat); (49688, 2%nat); (49695, 2%nat); (49699, 2%nat); (49707, 2%nat); (49718, 2%nat); (49721, 3%nat);
(49724, 2%nat); (49726, 3%nat); (49727, 2%nat); (49731, 2%nat); (49748, 3%nat); (49749, 2%nat); (49942, 2%nat); (49943, 2%nat); (49944, 2%nat); (49960, 3%nat);
(50435, 2%nat); (50439, 2%nat); (50440, 2%nat); (50441, 3%nat); (50443, 2%nat); (50450, 3%nat); (50694, 2%nat); (50695, 2%nat); (50699, 2%nat); (50700, 2%nat);
(50701, 3%nat); (50702, 3%nat); (50704, 2%nat); (50707, 2%nat); (50711, 2%nat); (50715, 2%nat); (50716, 3%nat); (50718, 3%nat); (50719, 3%nat); (50945, 3%nat);
(50946, 3%nat); (50947, 4%nat); (50948, 4%nat); (50949, 4%nat); (50950, 4%nat); (50951, 3%nat); (50952, 3%nat); (50953, 3%nat); (50955, 2%nat); (50959, 2%nat);
(50962, 2%nat); (50964, 3%nat); (50965, 3%nat); (50966, 2%nat); (50989, 2%nat); (50992, 2%nat); (50995, 3%nat); (50996, 2%nat); (50997, 2%nat); (50999, 3%nat);
(51000, 4%nat); (51015, 3%nat); (51017, 4%nat); (51023, 3%nat); (51024, 3%nat); (51025, 3%nat); (51026, 3%nat); (51027, 3%nat); (51028, 3%nat); (51030, 3%nat);
(51034, 3%nat); (51035, 3%nat); (51036, 3%nat); (51040, 4%nat); (51201, 3%nat); (51202, 3%nat); (51203, 3%nat); (51204, 3%nat); (51205, 4%nat); (51207, 3%nat);
(51208, 4%nat); (51209, 4%nat); (51210, 2%nat); (51211, 2%nat); (51212, 2%nat); (51213, 3%nat); (51214, 4%nat); (51215, 2%nat); (51216, 2%nat); (51457, 3%nat);
(51458, 3%nat); (51459, 3%nat); (51460, 3%nat); (51461, 3%nat); (51462, 3%nat); (51463, 3%nat); (51464, 3%nat); (51467, 3%nat); (51468, 3%nat); (51469, 3%nat);
(51470, 3%nat); (51471, 3%nat); (51472, 3%nat); (51473, 3%nat); (51474, 3%nat); (51475, 3%nat); (51476, 3%nat); (51506, 3%nat); (51507, 3%nat); (51508, 3%nat);
(51509, 3%nat); (51510, 2%nat); (51516, 4%nat); (51517, 5%nat); (51518, 5%nat); (51519, 5%nat); (51520, 5%nat); (51521, 5%nat); (51522, 5%nat); (51526, 2%nat);
(51713, 4%nat); (51714, 4%nat); (51715, 4%nat); (51716, 4%nat); (51717, 4%nat); (51718, 4%nat); (51719, 4%nat); (51720, 2%nat); (51721, 2%nat); (51722, 2%nat);
(51726, 3%nat); (51727, 3%nat); (51728, 3%nat); (51731, 2%nat); (51732, 2%nat); (51735, 3%nat); (51736, 3%nat); (51738, 2%nat); (51739, 2%nat); (51740, 2%nat);
(51742, 2%nat); (51762, 3%nat); (51764, 2%nat); (51767, 3%nat); (51772, 2%nat); (51773, 2%nat); (51774, 2%nat); (51969, 3%nat); (51970, 3%nat); (51973, 2%nat);
(51975, 2%nat); (51976, 2%nat); (51977, 3%nat); (51978, 2%nat); (52225, 3%nat); (52226, 3%nat); (52227, 4%nat); (52228, 4%nat); (52229, 4%nat); (52230, 3%nat);
(52231, 4%nat); (52238, 2%nat); (52239, 2%nat); (52240, 3%nat); (52241, 2%nat); (52242, 3%nat); (52243, 4%nat); (52244, 4%nat); (52245, 4%nat); (52246, 4%nat);
(52247, 4%nat); (52248, 5%nat); (52249, 5%nat); (52250, 2%nat); (52251, 4%nat); (52252, 2%nat); (52269, 2%nat); (52274, 2%nat); (52275, 2%nat); (52276, 2%nat);
(52277, 2%nat); (52282, 2%nat); (52283, 2%nat); (52285, 3%nat); (52294, 2%nat); (52512, 2%nat); (52522, 2%nat); (52993, 2%nat); (52994, 2%nat); (52995, 2%nat);
(52996, 2%nat); (52998, 2%nat); (53249, 2%nat); (53270, 2%nat); (53278, 3%nat); (53279, 4%nat); (53280, 4%nat); (53281, 4%nat); (53282, 5%nat); (53283, 5%nat);
(53284, 5%nat); (53285, 5%nat); (53286, 5%nat); (53287, 5%nat); (53288, 4%nat); (53298, 2%nat); (53300, 2%nat); (53319, 6%nat); (53320, 6%nat); (53321, 6%nat);
(53322, 4%nat); (53323, 5%nat); (53324, 5%nat); (53325, 5%nat); (53326, 5%nat); (53327, 5%nat); (53328, 5%nat); (53329, 5%nat); (53761, 3%nat); (53763, 3%nat);
(53764, 3%nat); (54532, 3%nat); (59393, 2%nat); (59399, 2%nat); (59400, 2%nat); (59401, 2%nat)].

Definition depths_D0000000000000017000 : list (Z * nat) := [
(49156, 2%nat); (49162, 2%nat); (49422, 2%nat); (49433, 2%nat); (49434, 2%nat); (49435, 3%nat); (49436, 2%nat); (49439, 2%nat); (49440, 2%nat); (49441, 2%nat);
(49442, 2%nat); (49443, 2%nat); (49444, 2%nat); (49445, 2%nat); (49446, 2%nat); (49447, 2%nat); (49448, 2%nat); (49449, 2%nat); (49450, 3%nat); (49451, 2%nat);
(49452, 2%nat); (49453, 2%nat); (49455, 3%nat); (49459, 2%nat); (49463, 2%nat); (49466, 3%nat); (49467, 2%nat); (49470, 2%nat); (49474, 2%nat); (49480, 2%nat);
(49498, 2%nat); (49500, 2%nat); (49501, 3%nat); (49518, 2%nat); (49519, 2%nat); (49521, 2%nat); (49522, 2%nat); (49528, 4%nat); (49529, 3%nat); (49530, 2%nat);
(49531, 2%nat); (49602, 2%nat); (49603, 2%nat); (49604, 2%nat); (49606, 2%nat); (49645, 2%nat); (49658, 2%nat); (49675, 2%nat); (49676, 2%nat); (49677, 2%nat);
(49688, 2%nat); (49695, 2%nat); (49699, 2%nat); (49707, 2%nat); (49718, 2%nat); (49721, 3%nat); (49724, 2%nat); (49726, 3%nat); (49727, 2%nat); (49748, 3%nat);
(49749, 2%nat); (49870, 2%nat); (49942, 2%nat); (49943, 2%nat); (49944, 2%nat); (49960, 3%nat); (50440, 2%nat); (50694, 2%nat); (50695, 2%nat); (50699, 2%nat);
(50700, 2%nat); (50701, 3%nat); (50702, 3%nat); (50704, 2%nat); (50707, 2%nat); (50711, 2%nat); (50715, 2%nat); (50716, 3%nat); (50718, 3%nat); (50719, 3%nat);
(50945, 3%nat); (50946, 3%nat); (50947, 4%nat); (50948, 4%nat); (50949, 4%nat); (50950, 4%nat); (50951, 3%nat); (50952, 3%nat); (50953, 3%nat); (50955, 2%nat);
(50959, 2%nat); (50962, 2%nat); (50964, 3%nat); (50965, 3%nat); (50966, 2%nat); (50989, 2%nat); (50992, 2%nat); (50995, 3%nat); (50996, 2%nat); (50997, 2%nat);
(50999, 3%nat); (51000, 4%nat); (51015, 3%nat); (51017, 4%nat); (51023, 3%nat); (51024, 3%nat); (51025, 3%nat); (51026, 3%nat); (51027, 3%nat); (51028, 3%nat);
(51030, 3%nat); (51034, 3%nat); (51035, 3%nat); (51036, 3%nat); (51040, 4%nat); (51201, 3%nat); (51202, 3%nat); (51203, 3%nat); (51204, 3%nat); (51205, 4%nat);
(51207, 3%nat); (51208, 4%nat); (51209, 4%nat); (51210, 2%nat); (51211, 2%nat); (51212, 2%nat); (51213, 3%nat); (51214, 4%nat); (51215, 2%nat); (51216, 2%nat);
(51457, 3%nat); (51458, 3%nat); (51459, 3%nat); (51460, 3%nat); (51461, 3%nat); (51462, 3%nat); (51463, 3%nat); (51464, 3%nat); (51467, 3%nat); (51468, 3%nat);
(51469, 3%nat); (51470, 3%nat); (51471, 3%nat); (51472, 3%nat); (51473, 3%nat); (51474, 3%nat); (51475, 3%nat); (51476, 3%nat); (51506, 3%nat); (51507, 3%nat);
(51508, 3%nat); (51509, 3%nat); (51510, 2%nat); (51516, 4%nat); (51517, 5%nat); (51518, 5%nat); (51519, 5%nat); (51520, 5%nat); (51521, 5%nat); (51522, 5%nat);
(51526, 2%nat); (51650, 3%nat); (51651, 3%nat); (51652, 3%nat); (51654, 3%nat); (51713, 4%nat); (51714, 4%nat); (51715, 4%nat); (51716, 4%nat); (51717, 4%nat);
(51718, 4%nat); (51719, 4%nat); (51720, 2%nat); (51721, 2%nat); (51722, 2%nat); (51726, 3%nat); (51727, 3%nat); (51728, 3%nat); (51731, 2%nat); (51732, 2%nat);
(51735, 3%nat); (51736, 3%nat); (51738, 2%nat); (51739, 2%nat); (51740, 2%nat); (51742, 2%nat); (51762, 3%nat); (51764, 2%nat); (51767, 3%nat); (51772, 2%nat);
(51773, 2%nat); (51774, 2%nat); (51905, 3%nat); (51906, 3%nat); (51907, 3%nat); (51908, 3%nat); (51938, 2%nat); (51969, 3%nat); (51970, 3%nat); (51973, 2%nat);
(51975, 2%nat); (51976, 2%nat); (51977, 3%nat); (52161, 2%nat); (52225, 3%nat); (52226, 3%nat); (52227, 4%nat); (52228, 4%nat); (52229, 4%nat); (52230, 3%nat);
(52231, 4%nat); (52238, 2%nat); (52239, 2%nat); (52240, 3%nat); (52241, 2%nat); (52242, 3%nat); (52243, 4%nat); (52244, 4%nat); (52245, 4%nat); (52246, 4%nat);
(52247, 4%nat); (52248, 5%nat); (52249, 5%nat); (52250, 2%nat); (52251, 4%nat); (52252, 2%nat); (52269, 2%nat); (52274, 2%nat); (52275, 2%nat); (52276, 2%nat);
(52277, 2%nat); (52282, 2%nat); (52283, 2%nat); (52285, 3%nat); (52294, 2%nat); (52424, 3%nat); (52425, 3%nat); (52426, 3%nat); (52427, 3%nat); (52428, 4%nat);
(52432, 2%nat); (52433, 3%nat); (52434, 4%nat); (52435, 3%nat); (52436, 2%nat); (52512, 2%nat); (52522, 2%nat); (52993, 2%nat); (52994, 2%nat); (52995, 2%nat);
(52998, 2%nat); (53249, 2%nat); (53270, 2%nat); (53278, 3%nat); (53279, 4%nat); (53280, 4%nat); (53281, 4%nat); (53282, 5%nat); (53283, 5%nat); (53284, 5%nat);
(53285, 5%nat); (53286, 5%nat); (53287, 5%nat); (53288, 4%nat); (53298, 2%nat); (53300, 2%nat); (53319, 6%nat); (53320, 6%nat); (53321, 6%nat); (53322, 4%nat);
(53323, 5%nat); (53324, 5%nat); (53325, 5%nat); (53326, 5%nat); (53327, 5%nat); (53328, 5%nat); (53329, 5%nat); (53761, 3%nat); (53763, 3%nat); (53764, 3%nat);
(54532, 3%nat); (59393, 2%nat); (59399, 2%nat); (59400, 2%nat); (59401, 2%nat)].

Definition depths_D0000000000000018000 : list (Z * nat) := [
(49156, 2%nat); (49162, 2%nat); (49422, 2%nat); (49433, 2%nat); (49434, 2%nat); (49435, 3%nat); (49436, 2%nat); (49439, 2%nat); (49440, 2%nat); (49441, 2%nat);
(49442, 2%nat); (49443, 2%nat); (49444, 2%nat); (49445, 2%nat); (49446, 2%nat); (49447, 2%nat); (49448, 2%nat); (49449, 2%nat); (49450, 3%nat); (49451, 2%nat);
(49452, 2%nat); (49453, 2%nat); (49455, 3%nat); (49459, 2%nat); (49463, 2%nat); (49466, 3%nat); (49467, 2%nat); (49470, 2%nat); (49474, 2%nat); (49480, 2%nat);
(49498, 2%nat); (49500, 2%nat); (49501, 3%nat); (49518, 2%nat); (49519, 2%nat); (49521, 2%nat); (49522, 2%nat); (49528, 4%nat); (49529, 3%nat); (49530, 2%nat);
(49531, 2%nat); (49675, 2%nat); (49676, 2%nat); (49677, 2%nat); (49688, 2%nat); (49695, 2%nat); (49699, 2%nat); (49707, 2%nat); (49718, 2%nat); (49721, 3%nat);
(49724, 2%nat); (49748, 3%nat); (49749, 2%nat); (49942, 2%nat); (49943, 2%nat); (49944, 2%nat); (49960, 3%nat); (50435, 2%nat); (50439, 2%nat); (50440, 2%nat);
(50441, 3%nat); (50443, 2%nat); (50450, 3%nat); (50694, 2%nat); (50695, 2%nat); (50707, 2%nat); (50711, 2%nat); (50715, 2%nat); (50716, 3%nat); (50718, 3%nat);
(50719, 3%nat); (50945, 3%nat); (50946, 3%nat); (50947, 4%nat); (50948, 4%nat); (50949, 4%nat); (50950, 4%nat); (50951, 3%nat); (50952, 3%nat); (50953, 3%nat);
(50955, 2%nat); (50959, 2%nat); (50962, 2%nat); (50964, 3%nat); (50965, 3%nat); (50966, 2%nat); (50989, 2%nat); (50992, 2%nat); (50995, 3%nat); (50996, 2%nat);
(50997, 2%nat); (50999, 3%nat); (51000, 4%nat); (51015, 3%nat); (51017, 4%nat); (51023, 3%nat); (51024, 3%nat); (51025, 3%nat); (51026, 3%nat); (51027, 3%nat);
(51028, 3%nat); (51030, 3%nat); (51034, 3%nat); (51035, 3%nat); (51040, 4%nat); (51201, 3%nat); (51202, 3%nat); (51203, 3%nat); (51204, 3%nat); (51205, 4%nat);
(51207, 3%nat); (51209, 4%nat); (51210, 2%nat); (51211, 2%nat); (51212, 2%nat); (51213, 3%nat); (51457, 3%nat); (51458, 3%nat); (51459, 3%nat); (51460, 3%nat);
(51461, 3%nat); (51462, 3%nat); (51463, 3%nat); (51464, 3%nat); (51467, 3%nat); (51468, 3%nat); (51469, 3%nat); (51470, 3%nat); (51471, 3%nat); (51472, 3%nat);
(51473, 3%nat); (51474, 3%nat); (51475, 3%nat); (51476, 3%nat); (51506, 3%nat); (51507, 3%nat); (51508, 3%nat); (51509, 3%nat); (51510, 2%nat); (51516, 4%nat);
(51517, 5%nat); (51518, 5%nat); (51519, 5%nat); (51520, 5%nat); (51521, 5%nat); (51522, 5%nat); (51526, 2%nat); (51713, 4%nat); (51714, 4%nat); (51715, 4%nat);
(51716, 4%nat); (51717, 4%nat); (51718, 4%nat); (51719, 4%nat); (51720, 2%nat); (51721, 2%nat); (51722, 2%nat); (51726, 3%nat); (51727, 3%nat); (51728, 3%nat);
(51731, 2%nat); (51732, 2%nat); (51735, 3%nat); (51736, 3%nat); (51738, 2%nat); (51739, 2%nat); (51740, 2%nat); (51742, 2%nat); (51762, 3%nat); (51764, 2%nat);
(51767, 3%nat); (51772, 2%nat); (51773, 2%nat); (51774, 2%nat); (51969, 3%nat); (51970, 3%nat); (51973, 2%nat); (51975, 2%nat); (51976, 2%nat); (51977, 3%nat);
(51978, 2%nat); (51979, 2%nat); (52225, 3%nat); (52226, 3%nat); (52227, 4%nat); (52228, 4%nat); (52229, 4%nat); (52230, 3%nat); (52231, 4%nat); (52238, 2%nat);
(52239, 2%nat); (52240, 3%nat); (52241, 2%nat); (52242, 3%nat); (52243, 4%nat); (52244, 4%nat); (52245, 4%nat); (52246, 4%nat); (52247, 4%nat); (52248, 5%nat);
(52249, 5%nat); (52250, 2%nat); (52251, 4%nat); (52252, 2%nat); (52269, 2%nat); (52274, 2%nat); (52275, 2%nat); (52276, 2%nat); (52277, 2%nat); (52282, 2%nat);
(52283, 2%nat); (52285, 3%nat); (52294, 2%nat); (52512, 2%nat); (52522, 2%nat); (52993, 2%nat); (52994, 2%nat); (52995, 2%nat); (53249, 2%nat); (53270, 2%nat);
(53278, 3%nat); (53279, 4%nat); (53280, 4%nat); (53281, 4%nat); (53282, 5%nat); (53283, 5%nat); (53284, 5%nat); (53285, 5%nat); (53286, 5%nat); (53287, 5%nat);
(53288, 4%nat); (53298, 2%nat); (53300, 2%nat); (53319, 6%nat); (53320, 6%nat); (53321, 6%nat); (53322, 4%nat); (53323, 5%nat); (53324, 5%nat); (53325, 5%nat);
(53326, 5%nat); (53327, 5%nat); (53328, 5%nat); (53329, 5%nat); (53761, 3%nat); (53763, 3%nat); (53764, 3%nat); (54532, 3%nat); (59393, 2%nat); (59399, 2%nat);
(59400, 2%nat); (59401, 2%nat)].

Definition depths_D0000000000000019000 : list (Z * nat) := [
(49156, 2%nat); (49162, 2%nat); (49422, 2%nat); (49433, 2%nat); (49434, 2%nat); (49435, 3%nat); (49436, 2%nat); (49437, 2%nat); (49438, 2%nat); (49439, 2%nat);
(49440, 2%nat); (49441, 2%nat); (49442, 2%nat); (49443, 2%nat); (49444, 2%nat); (49445, 2%nat); (49446, 2%nat); (49447, 2%nat); (49448, 2%nat); (49449, 2%nat);
(49450, 3%nat); (49451, 2%nat); (49452, 2%nat); (49453, 2%nat); (49455, 3%nat); (49459, 2%nat); (49463, 2%nat); (49466, 3%nat); (49467, 2%nat); (49470, 2%nat);
(49474, 2%nat); (49480, 2%nat); (49483, 2%nat); (49498, 2%nat); (49500, 2%nat); (49501, 3%nat); (49518, 2%nat); (49519, 2%nat); (49521, 2%nat); (49522, 2%nat);
(49528, 4%nat); (49529, 3%nat); (49530, 2%nat); (49531, 2%nat); (49675, 2%nat); (49676, 2%nat); (49677, 2%nat); (49688, 2%nat); (49695, 2%nat); (49699, 2%nat);
(49707, 2%nat); (49718, 2%nat); (49721, 3%nat); (49724, 2%nat); (49748, 3%nat); (49749, 2%nat); (49942, 2%nat); (49943, 2%nat); (49944, 2%nat); (49960, 3%nat);
(50434, 2%nat); (50435, 2%nat); (50436, 3%nat); (50439, 3%nat); (50440, 2%nat); (50441, 3%nat); (50442, 3%nat); (50443, 4%nat); (50450, 3%nat); (50694, 2%nat);
(50695, 2%nat); (50707, 2%nat); (50708, 2%nat); (50709, 2%nat); (50710, 2%nat); (50711, 2%nat); (50712, 3%nat); (50713, 3%nat); (50715, 2%nat); (50716, 3%nat);
(50718, 3%nat); (50719, 3%nat); (50945, 3%nat); (50946, 3%nat); (50947, 4%nat); (50948, 4%nat); (50949, 4%nat); (50950, 4%nat); (50951, 3%nat); (50952, 3%nat);
(50953, 3%nat); (50955, 2%nat); (50959, 2%nat); (50962, 2%nat); (50964, 3%nat); (50965, 3%nat); (50966, 2%nat); (50985, 2%nat); (50986, 2%nat); (50987, 2%nat);
(50988, 2%nat); (50989, 2%nat); (50992, 2%nat); (50995, 3%nat); (50996, 2%nat); (50997, 2%nat); (50999, 3%nat); (51000, 4%nat); (51005, 3%nat); (51006, 3%nat);
(51015, 3%nat); (51017, 4%nat); (51023, 3%nat); (51024, 3%nat); (51025, 3%nat); (51026, 3%nat); (51027, 3%nat); (51028, 3%nat); (51030, 3%nat); (51031, 2%nat);
(51033, 3%nat); (51034, 3%nat); (51035, 3%nat); (51040, 4%nat); (51201, 3%nat); (51202, 3%nat); (51203, 3%nat); (51204, 3%nat); (51205, 4%nat); (51207, 3%nat);
(51209, 4%nat); (51210, 2%nat); (51211, 2%nat); (51212, 2%nat); (51213, 3%nat); (51457, 3%nat); (51458, 3%nat); (51459, 3%nat); (51460, 3%nat); (51461, 3%nat);
(51462, 3%nat); (51463, 3%nat); (51464, 3%nat); (51467, 3%nat); (51468, 3%nat); (51469, 3%nat); (51470, 3%nat); (51471, 3%nat); (51472, 3%nat); (51473, 3%nat);
(51474, 3%nat); (51475, 3%nat); (51476, 3%nat); (51496, 3%nat); (51497, 3%nat); (51498, 3%nat); (51499, 3%nat); (51500, 3%nat); (51501, 3%nat); (51502, 3%nat);
(51503, 3%nat); (51504, 3%nat); (51505, 3%nat); (51506, 3%nat); (51507, 3%nat); (51508, 3%nat); (51509, 3%nat); (51510, 2%nat); (51516, 4%nat); (51517, 5%nat);
(51518, 5%nat); (51519, 5%nat); (51520, 5%nat); (51521, 5%nat); (51522, 5%nat); (51526, 2%nat); (51527, 3%nat); (51713, 4%nat); (51714, 4%nat); (51715, 4%nat);
(51716, 4%nat); (51717, 4%nat); (51718, 4%nat); (51719, 4%nat); (51720, 2%nat); (51721, 2%nat); (51722, 2%nat); (51726, 3%nat); (51727, 3%nat); (51728, 3%nat);
(51731, 2%nat); (51732, 2%nat); (51735, 3%nat); (51736, 3%nat); (51738, 2%nat); (51739, 2%nat); (51740, 2%nat); (51742, 2%nat); (51762, 3%nat); (51764, 2%nat);
(51767, 3%nat); (51772, 2%nat); (51773, 2%nat); (51774, 2%nat); (51775, 2%nat); (51969, 3%nat); (51970, 3%nat); (51973, 2%nat); (51975, 2%nat); (51976, 2%nat);
(51977, 3%nat); (51978, 2%nat); (51979, 2%nat); (52225, 3%nat); (52226, 3%nat); (52227, 4%nat); (52228, 4%nat); (52229, 4%nat); (52230, 3%nat); (52231, 4%nat);
(52238, 2%nat); (52239, 2%nat); (52240, 3%nat); (52241, 2%nat); (52242, 3%nat); (52243, 4%nat); (52244, 4%nat); (52245, 4%nat); (52246, 4%nat); (52247, 4%nat);
(52248, 5%nat); (52249, 5%nat); (52250, 2%nat); (52251, 4%nat); (52252, 2%nat); (52269, 2%nat); (52274, 2%nat); (52275, 2%nat); (52276, 2%nat); (52277, 2%nat);
(52282, 2%nat); (52283, 2%nat); (52285, 3%nat); (52294, 2%nat); (52512, 2%nat); (52522, 2%nat); (52993, 2%nat); (52994, 2%nat); (52995, 2%nat); (52996, 2%nat);
(53249, 2%nat); (53268, 2%nat); (53269, 2%nat); (53270, 2%nat); (53274, 3%nat); (53275, 3%nat); (53278, 3%nat); (53279, 4%nat); (53280, 4%nat); (53281, 4%nat);
(53282, 5%nat); (53283, 5%nat); (53284, 5%nat); (53285, 5%nat); (53286, 5%nat); (53287, 5%nat); (53288, 4%nat); (53298, 2%nat); (53300, 2%nat); (53308, 2%nat);
(53309, 2%nat); (53319, 6%nat); (53320, 6%nat); (53321, 6%nat); (53322, 4%nat); (53323, 5%nat); (53324, 5%nat); (53325, 5%nat); (53326, 5%nat); (53327, 5%nat);
(53328, 5%nat); (53329, 5%nat); (53761, 3%nat); (53763, 3%nat); (53764, 3%nat); (54532, 3%nat); (59393, 2%nat); (59399, 2%nat); (59400, 2%nat); (59401, 2%nat)].

Definition depths_D0000000000000021000 : list (Z * nat) := [
(49156, 2%nat); (49162, 2%nat); (49422, 2%nat); (49433, 2%nat); (49434, 2%nat); (49435, 3%nat); (49436, 2%nat); (49437, 2%nat); (49438, 2%nat); (49439, 2%nat);
(49440, 2%nat); (49441, 2%nat); (49442, 2%nat); (49443, 2%nat); (49444, 2%nat); (49445, 2%nat); (49446, 2%nat); (49447, 2%nat); (49448, 2%nat); (49449, 2%nat);
(49450, 3%nat); (49451, 2%nat); (49452, 2%nat); (49453, 2%nat); (49455, 3%nat); (49459, 2%nat); (49463, 2%nat); (49466, 3%nat); (49467, 2%nat); (49470, 2%nat);
(49474, 2%nat); (49480, 2%nat); (49483, 2%nat); (49498, 2%nat); (49500, 2%nat); (49501, 3%nat); (49518, 2%nat); (49519, 2%nat); (49521, 2%nat); (49522, 2%nat);
(49528, 4%nat); (49529, 3%nat); (49530, 2%nat); (49531, 2%nat); (49675, 2%nat); (49676, 2%nat); (49677, 2%nat); (49688, 2%nat); (49695, 2%nat); (49699, 2%nat);
(49707, 2%nat); (49718, 2%nat); (49721, 3%nat); (49724, 2%nat); (49748, 3%nat); (49749, 2%nat); (49942, 2%nat); (49943, 2%nat); (49944, 2%nat); (49960, 3%nat);
(50434, 2%nat); (50435, 2%nat); (50436, 3%nat); (50439, 3%nat); (50440, 2%nat); (50441, 3%nat); (50442, 3%nat); (50443, 4%nat); (50450, 3%nat); (50694, 2%nat);
(50695, 2%nat); (50707, 2%nat); (50708, 2%nat); (50709, 2%nat); (50710, 2%nat); (50711, 2%nat); (50712, 3%nat); (50713, 3%nat); (50715, 2%nat); (50716, 3%nat);
(50718, 3%nat); (50719, 3%nat); (50945, 3%nat); (50946, 3%nat); (50947, 4%nat); (50948, 4%nat); (50949, 4%nat); (50950, 4%nat); (50951, 3%nat); (50952, 3%nat);
(50953, 3%nat); (50955, 2%nat); (50959, 2%nat); (50962, 2%nat); (50964, 3%nat); (50965, 3%nat); (50966, 2%nat); (50985, 2%nat); (50986, 2%nat); (50987, 2%nat);
(50988, 2%nat); (50989, 2%nat); (50992, 2%nat); (50995, 3%nat); (50996, 2%nat); (50997, 2%nat); (50999, 3%nat); (51000, 4%nat); (51005, 3%nat); (51006, 3%nat);
(51015, 3%nat); (51017, 4%nat); (51023, 3%nat); (51024, 3%nat); (51025, 3%nat); (51026, 3%nat); (51027, 3%nat); (51028, 3%nat); (51030, 3%nat); (51031, 2%nat);
(51033, 3%nat); (51034, 3%nat); (51035, 3%nat); (51040, 4%nat); (51201, 3%nat); (51202, 3%nat); (51203, 3%nat); (51204, 3%nat); (51205, 4%nat); (51207, 3%nat);
(51209, 4%nat); (51210, 2%nat); (51211, 2%nat); (51212, 2%nat); (51213, 3%nat); (51457, 3%nat); (51458, 3%nat); (51459, 3%nat); (51460, 3%nat); (51461, 3%nat);
(51462, 3%nat); (51463, 3%nat); (51464, 3%nat); (51467, 3%nat); (51468, 3%nat); (51469, 3%nat); (51470, 3%nat); (51471, 3%nat); (51472, 3%nat); (51473, 3%nat);
(51474, 3%nat); (51475, 3%nat); (51476, 3%nat); (51496, 3%nat); (51497, 3%nat); (51498, 3%nat); (51499, 3%nat); (51500, 3%nat); (51501, 3%nat); (51502, 3%nat);
(51503, 3%nat); (51504, 3%nat); (51505, 3%nat); (51506, 3%nat); (51507, 3%nat); (51508, 3%nat); (51509, 3%nat); (51510, 2%nat); (51511, 3%nat); (51516, 4%nat);
(51517, 5%nat); (51518, 5%nat); (51519, 5%nat); (51520, 5%nat); (51521, 5%nat); (51522, 5%nat); (51526, 2%nat); (51527, 3%nat); (51713, 4%nat); (51714, 4%nat);
(51715, 4%nat); (51716, 4%nat); (51717, 4%nat); (51718, 4%nat); (51719, 4%nat); (51720, 2%nat); (51721, 2%nat); (51722, 2%nat); (51726, 3%nat); (51727, 3%nat);
(51728, 3%nat); (51731, 2%nat); (51732, 2%nat); (51735, 3%nat); (51736, 3%nat); (51738, 2%nat); (51739, 2%nat); (51740, 2%nat); (51742, 2%nat); (51762, 3%nat);
(51764, 2%nat); (51767, 3%nat); (51772, 2%nat); (51773, 2%nat); (51774, 2%nat); (51775, 2%nat); (51776, 2%nat); (51777, 2%nat); (51778, 2%nat); (51969, 3%nat);
(51970, 3%nat); (51973, 2%nat); (51975, 2%nat); (51976, 2%nat); (51977, 3%nat); (51978, 2%nat); (51979, 2%nat); (52225, 3%nat); (52226, 3%nat); (52227, 4%nat);
(52228, 4%nat); (52229, 4%nat); (52230, 3%nat); (52231, 4%nat); (52238, 2%nat); (52239, 2%nat); (52240, 3%nat); (52241, 2%nat); (52242, 3%nat); (52243, 4%nat);
(52244, 4%nat); (52245, 4%nat); (52246, 4%nat); (52247, 4%nat); (52248, 5%nat); (52249, 5%nat); (52250, 2%nat); (52251, 4%nat); (52252, 2%nat); (52269, 2%nat);
(52274, 2%nat); (52275, 2%nat); (52276, 2%nat); (52277, 2%nat); (52282, 2%nat); (52283, 2%nat); (52285, 3%nat); (52294, 2%nat); (52512, 2%nat); (52522, 2%nat);
(52993, 2%nat); (52994, 2%nat); (52995, 2%nat); (52996, 2%nat); (53249, 2%nat); (53268, 2%nat); (53269, 2%nat); (53270, 2%nat); (53274, 3%nat); (53275, 3%nat);
(53278, 3%nat); (53279, 4%nat); (53280, 4%nat); (53281, 4%nat); (53282, 5%nat); (53283, 5%nat); (53284, 5%nat); (53285, 5%nat); (53286, 5%nat); (53287, 5%nat);
(53288, 4%nat); (53298, 2%nat); (53300, 2%nat); (53308, 2%nat); (53309, 2%nat); (53319, 6%nat); (53320, 6%nat); (53321, 6%nat); (53322, 4%nat); (53323, 5%nat);
(53324, 5%nat); (53325, 5%nat); (53326, 5%nat); (53327, 5%nat); (53328, 5%nat); (53329, 5%nat); (53761, 3%nat); (53763, 3%nat); (53764, 3%nat); (54532, 3%nat);
(59393, 2%nat); (59399, 2%nat); (59400, 2%nat); (59401, 2%nat)].

Definition depths_D0000000000000022000 : list (Z * nat) := [
(49156, 2%nat); (49162, 2%nat); (49422, 2%nat); (49433, 2%nat); (49434, 2%nat); (49435, 3%nat); (49436, 2%nat); (49437, 2%nat); (49438, 2%nat); (49439, 2%nat);
(49440, 2%nat); (49441, 2%nat); (49442, 2%nat); (49443, 2%nat); (49444, 2%nat); (49445, 2%nat); (49446, 2%nat); (49447, 2%nat); (49448, 2%nat); (49449, 2%nat);
(49450, 3%nat); (49451, 2%nat); (49452, 2%nat); (49453, 2%nat); (49455, 3%nat); (49459, 2%nat); (49463, 2%nat); (49466, 3%nat); (49467, 2%nat); (49470, 2%nat);
(49474, 2%nat); (49480, 2%nat); (49483, 2%nat); (49498, 2%nat); (49500, 2%nat); (49501, 3%nat); (49518, 2%nat); (49519, 2%nat); (49521, 2%nat); (49522, 2%nat);
(49528, 4%nat); (49529, 3%nat); (49530, 2%nat); (49531, 2%nat); (49534, 2%nat); (49675, 2%nat); (49676, 2%nat); (49677, 2%nat); (49688, 2%nat); (49695, 2%nat);
(49699, 2%nat); (49707, 2%nat); (49718, 2%nat); (49721, 3%nat); (49724, 2%nat); (49748, 3%nat); (49749, 2%nat); (49942, 2%nat); (49943, 2%nat); (49944, 2%nat);
(49960, 3%nat); (50434, 2%nat); (50435, 2%nat); (50436, 3%nat); (50439, 3%nat); (50440, 2%nat); (50441, 3%nat); (50442, 3%nat); (50443, 4%nat); (50450, 3%nat);
(50694, 2%nat); (50695, 2%nat); (50699, 2%nat); (50700, 2%nat); (50701, 3%nat); (50702, 3%nat); (50704, 2%nat); (50707, 2%nat); (50708, 2%nat); (50709, 2%nat);
(50710, 2%nat); (50711, 2%nat); (50712, 3%nat); (50713, 3%nat); (50715, 2%nat); (50716, 3%nat); (50718, 3%nat); (50719, 3%nat); (50945, 3%nat); (50946, 3%nat);
(50947, 4%nat); (50948, 4%nat); (50949, 4%nat); (50950, 4%nat); (50951, 3%nat); (50952, 3%nat); (50953, 3%nat); (50955, 2%nat); (50959, 2%nat); (50962, 2%nat);
(50964, 3%nat); (50965, 3%nat); (50966, 2%nat); (50985, 2%nat); (50986, 2%nat); (50987, 2%nat); (50988, 2%nat); (50989, 2%nat); (50992, 2%nat); (50995, 3%nat);
(50996, 2%nat); (50997, 2%nat); (50999, 3%nat); (51000, 4%nat); (51005, 3%nat); (51006, 3%nat); (51015, 3%nat); (51017, 4%nat); (51023, 3%nat); (51024, 3%nat);
(51025, 3%nat); (51026, 3%nat); (51027, 3%nat); (51028, 3%nat); (51030, 3%nat); (51031, 2%nat); (51033, 3%nat); (51034, 3%nat); (51035, 3%nat); (51040, 4%nat);
(51201, 3%nat); (51202, 3%nat); (51203, 3%nat); (51204, 3%nat); (51205, 4%nat); (51207, 3%nat); (51209, 4%nat); (51210, 2%nat); (51211, 2%nat); (51212, 2%nat);
(51213, 3%nat); (51457, 3%nat); (51458, 3%nat); (51459, 3%nat); (51460, 3%nat); (51461, 3%nat); (51462, 3%nat); (51463, 3%nat); (51464, 3%nat); (51467, 3%nat);
(51468, 3%nat); (51469, 3%nat); (51470, 3%nat); (51471, 3%nat); (51472, 3%nat); (51473, 3%nat); (51474, 3%nat); (51475, 3%nat); (51476, 3%nat); (51496, 3%nat);
(51497, 3%nat); (51498, 3%nat); (51499, 3%nat); (51500, 3%nat); (51501, 3%nat); (51502, 3%nat); (51503, 3%nat); (51504, 3%nat); (51505, 3%nat); (51506, 3%nat);
(51507, 3%nat); (51508, 3%nat); (51509, 3%nat); (51510, 2%nat); (51511, 3%nat); (51516, 4%nat); (51517, 5%nat); (51518, 5%nat); (51519, 5%nat); (51520, 5%nat);
(51521, 5%nat); (51522, 5%nat); (51526, 2%nat); (51527, 3%nat); (51713, 4%nat); (51714, 4%nat); (51715, 4%nat); (51716, 4%nat); (51717, 4%nat); (51718, 4%nat);
(51719, 4%nat); (51720, 2%nat); (51721, 2%nat); (51722, 2%nat); (51726, 3%nat); (51727, 3%nat); (51728, 3%nat); (51731, 2%nat); (51732, 2%nat); (51735, 3%nat);
(51736, 3%nat); (51738, 2%nat); (51739, 2%nat); (51740, 2%nat); (51742, 2%nat); (51762, 3%nat); (51764, 2%nat); (51767, 3%nat); (51772, 2%nat); (51773, 2%nat);
(51774, 2%nat); (51775, 2%nat); (51776, 2%nat); (51777, 2%nat); (51778, 2%nat); (51969, 3%nat); (51970, 3%nat); (51973, 2%nat); (51975, 2%nat); (51976, 2%nat);
(51977, 3%nat); (51978, 2%nat); (51979, 2%nat); (52225, 3%nat); (52226, 3%nat); (52227, 4%nat); (52228, 4%nat); (52229, 4%nat); (52230, 3%nat); (52231, 4%nat);
(52238, 2%nat); (52239, 2%nat); (52240, 3%nat); (52241, 2%nat); (52242, 3%nat); (52243, 4%nat); (52244, 4%nat); (52245, 4%nat); (52246, 4%nat); (52247, 4%nat);
(52248, 5%nat); (52249, 5%nat); (52250, 2%nat); (52251, 4%nat); (52252, 2%nat); (52269, 2%nat); (52274, 2%nat); (52275, 2%nat); (52276, 2%nat); (52277, 2%nat);
(52282, 2%nat); (52283, 2%nat); (52285, 3%nat); (52294, 2%nat); (52512, 2%nat); (52522, 2%nat); (52993, 2%nat); (52994, 2%nat); (52995, 2%nat); (52996, 2%nat);
(52999, 2%nat); (53000, 3%nat); (53001, 2%nat); (53249, 2%nat); (53268, 2%nat); (53269, 2%nat); (53270, 2%nat); (53274, 3%nat); (53275, 3%nat); (53278, 3%nat);
(53279, 4%nat); (53280, 4%nat); (53281, 4%nat); (53282, 5%nat); (53283, 5%nat); (53284, 5%nat); (53285, 5%nat); (53286, 5%nat); (53287, 5%nat); (53288, 4%nat);
(53298, 2%nat); (53300, 2%nat); (53308, 2%nat); (53309, 2%nat); (53319, 6%nat); (53320, 6%nat); (53321, 6%nat); (53322, 4%nat); (53323, 5%nat); (53324, 5%nat);
(53325, 5%nat); (53326, 5%nat); (53327, 5%nat); (53328, 5%nat); (53329, 5%nat); (53761, 3%nat); (53763, 3%nat); (53764, 3%nat); (54532, 3%nat); (59393, 2%nat);
(59399, 2%nat); (59400, 2%nat); (59401, 2%nat)].

Definition depths_D0000000000000023000 : list (Z * nat) := [
(49156, 2%nat); (49162, 2%nat); (49422, 2%nat); (49433, 2%nat); (49434, 2%nat); (49435, 3%nat); (49436, 2%nat); (49437, 2%nat); (49438, 2%nat); (49439, 2%nat);
(49440, 2%nat); (49441, 2%nat); (49442, 2%nat); (49443, 2%nat); (49444, 2%nat); (49445, 2%nat); (49446, 2%nat); (49447, 2%nat); (49448, 2%nat); (49449, 2%nat);
(49450, 3%nat); (49451, 2%nat); (49452, 2%nat); (49453, 2%nat); (49455, 3%nat); (49459, 2%nat); (49463, 2%nat); (49466, 3%nat); (49467, 2%nat); (49470, 2%nat);
(49474, 2%nat); (49480, 2%nat); (49483, 2%nat); (49498, 2%nat); (49500, 2%nat); (49501, 3%nat); (49518, 2%nat); (49519, 2%nat); (49521, 2%nat); (49522, 2%nat);
(49528, 4%nat); (49529, 3%nat); (49530, 2%nat); (49531, 2%nat); (49534, 2%nat); (49675, 2%nat); (49676, 2%nat); (49677, 2%nat); (49688, 2%nat); (49695, 2%nat);
(49699, 2%nat); (49707, 2%nat); (49718, 2%nat); (49721, 3%nat); (49724, 2%nat); (49748, 3%nat); (49749, 2%nat); (49942, 2%nat); (49943, 2%nat); (49944, 2%nat);
(49960, 3%nat); (50434, 2%nat); (50435, 2%nat); (50436, 3%nat); (50439, 3%nat); (50440, 2%nat); (50441, 3%nat); (50442, 3%nat); (50443, 4%nat); (50450, 3%nat);
(50694, 2%nat); (50695, 2%nat); (50699, 2%nat); (50700, 2%nat); (50701, 3%nat); (50702, 3%nat); (50704, 2%nat); (50707, 2%nat); (50708, 2%nat); (50709, 2%nat);
(50710, 2%nat); (50711, 2%nat); (50712, 3%nat); (50713, 3%nat); (50715, 2%nat); (50716, 3%nat); (50718, 3%nat); (50719, 3%nat); (50945, 3%nat); (50946, 3%nat);
(50947, 4%nat); (50948, 4%nat); (50949, 4%nat); (50950, 4%nat); (50951, 3%nat); (50952, 3%nat); (50953, 3%nat); (50955, 2%nat); (50959, 2%nat); (50962, 2%nat);
(50964, 3%nat); (50965, 3%nat); (50966, 2%nat); (50985, 2%nat); (50986, 2%nat); (50987, 2%nat); (50988, 2%nat); (50989, 2%nat); (50992, 2%nat); (50995, 3%nat);
(50996, 2%nat); (50997, 2%nat); (50999, 3%nat); (51000, 4%nat); (51005, 3%nat); (51006, 3%nat); (51015, 3%nat); (51017, 4%nat); (51020, 3%nat); (51022, 4%nat);
(51023, 3%nat); (51024, 3%nat); (51025, 3%nat); (51026, 3%nat); (51027, 3%nat); (51028, 3%nat); (51030, 3%nat); (51031, 2%nat); (51033, 3%nat); (51034, 3%nat);
(51035, 3%nat); (51040, 4%nat); (51045, 2%nat); (51126, 3%nat); (51201, 3%nat); (51202, 3%nat); (51203, 3%nat); (51204, 3%nat); (51205, 4%nat); (51207, 3%nat);
(51209, 4%nat); (51210, 2%nat); (51211, 2%nat); (51212, 2%nat); (51213, 3%nat); (51221, 2%nat); (51222, 2%nat); (51223, 3%nat); (51457, 3%nat); (51458, 3%nat);
(51459, 3%nat); (51460, 3%nat); (51461, 3%nat); (51462, 3%nat); (51463, 3%nat); (51464, 3%nat); (51467, 3%nat); (51468, 3%nat); (51469, 3%nat); (51470, 3%nat);
(51471, 3%nat); (51472, 3%nat); (51473, 3%nat); (51474, 3%nat); (51475, 3%nat); (51476, 3%nat); (51496, 3%nat); (51497, 3%nat); (51498, 3%nat); (51499, 3%nat);
(51500, 3%nat); (51501, 3%nat); (51502, 3%nat); (51503, 3%nat); (51504, 3%nat); (51505, 3%nat); (51506, 3%nat); (51507, 3%nat); (51508, 3%nat); (51509, 3%nat);
(51510, 2%nat); (51511, 3%nat); (51516, 4%nat); (51517, 5%nat); (51518, 5%nat); (51519, 5%nat); (51520, 5%nat); (51521, 5%nat); (51522, 5%nat); (51526, 2%nat);
(51527, 3%nat); (51713, 4%nat); (51714, 4%nat); (51715, 4%nat); (51716, 4%nat); (51717, 4%nat); (51718, 4%nat); (51719, 4%nat); (51720, 2%nat); (51721, 2%nat);
(51722, 2%nat); (51726, 3%nat); (51727, 3%nat); (51728, 3%nat); (51731, 2%nat); (51732, 2%nat); (51735, 3%nat); (51736, 3%nat); (51738, 2%nat); (51739, 2%nat);
(51740, 2%nat); (51742, 2%nat); (51762, 3%nat); (51764, 2%nat); (51767, 3%nat); (51772, 2%nat); (51773, 2%nat); (51774, 2%nat); (51775, 2%nat); (51776, 2%nat);
(51777, 2%nat); (51778, 2%nat); (51969, 3%nat); (51970, 3%nat); (51973, 2%nat); (51975, 2%nat); (51976, 2%nat); (51977, 3%nat); (51978, 2%nat); (51979, 2%nat);
(52225, 3%nat); (52226, 3%nat); (52227, 4%nat); (52228, 4%nat); (52229, 4%nat); (52230, 3%nat); (52231, 4%nat); (52238, 2%nat); (52239, 2%nat); (52240, 3%nat);
(52241, 2%nat); (52242, 3%nat); (52243, 4%nat); (52244, 4%nat); (52245, 4%nat); (52246, 4%nat); (52247, 4%nat); (52248, 5%nat); (52249, 5%nat); (52250, 2%nat);
(52251, 4%nat); (52252, 2%nat); (52269, 2%nat); (52274, 2%nat); (52275, 2%nat); (52276, 2%nat); (52277, 2%nat); (52282, 2%nat); (52283, 2%nat); (52285, 3%nat);
(52294, 2%nat); (52512, 2%nat); (52522, 2%nat); (52993, 2%nat); (52994, 2%nat); (52995, 2%nat); (52996, 2%nat); (52999, 2%nat); (53000, 3%nat); (53001, 2%nat);
(53249, 2%nat); (53268, 2%nat); (53269, 2%nat); (53270, 2%nat); (53274, 3%nat); (53275, 3%nat); (53278, 3%nat); (53279, 4%nat); (53280, 4%nat); (53281, 4%nat);
(53282, 5%nat); (53283, 5%nat); (53284, 5%nat); (53285, 5%nat); (53286, 5%nat); (53287, 5%nat); (53288, 4%nat); (53298, 2%nat); (53300, 2%nat); (53308, 2%nat);
(53309, 2%nat); (53319, 6%nat); (53320, 6%nat); (53321, 6%nat); (53322, 4%nat); (53323, 5%nat); (53324, 5%nat); (53325, 5%nat); (53326, 5%nat); (53327, 5%nat);
(53328, 5%nat); (53329, 5%nat); (53761, 3%nat); (53763, 3%nat); (53764, 3%nat); (54532, 3%nat); (59393, 2%nat); (59399, 2%nat); (59400, 2%nat); (59401, 2%nat)].

Definition depths_D0000000000000024000 : list (Z * nat) := [
(49156, 2%nat); (49162, 2%nat); (49422, 2%nat); (49433, 2%nat); (49434, 2%nat); (49435, 3%nat); (49436, 2%nat); (49437, 2%nat); (49438, 2%nat); (49439, 2%nat);
(49440, 2%nat); (49441, 2%nat); (49442, 2%nat); (49443, 2%nat); (49444, 2%nat); (49445, 2%nat); (49446, 2%nat); (49447, 2%nat); (49448, 2%nat); (49449, 2%nat);
(49450, 3%nat); (49451, 2%nat); (49452, 2%nat); (49453, 2%nat); (49455, 3%nat); (49459, 2%nat); (49463, 2%nat); (49466, 3%nat); (49467, 2%nat); (49470, 2%nat);
(49474, 2%nat); (49480, 2%nat); (49483, 2%nat); (49498, 2%nat); (49500, 2%nat); (49501, 3%nat); (49518, 2%nat); (49519, 2%nat); (49521, 2%nat); (49522, 2%nat);
(49528, 4%nat); (49529, 3%nat); (49530, 2%nat); (49531, 2%nat); (49534, 2%nat); (49675, 2%nat); (49676, 2%nat); (49677, 2%nat); (49688, 2%nat); (49695, 2%nat);
(49699, 2%nat); (49707, 2%nat); (49718, 2%nat); (49721, 3%nat); (49724, 2%nat); (49748, 3%nat); (49749, 2%nat); (49942, 2%nat); (49943, 2%nat); (49944, 2%nat);
(49960, 3%nat); (50434, 2%nat); (50435, 2%nat); (50436, 3%nat); (50439, 3%nat); (50440, 2%nat); (50441, 3%nat); (50442, 3%nat); (50443, 4%nat); (50450, 3%nat);
(50694, 2%nat); (50695, 2%nat); (50699, 2%nat); (50700, 2%nat); (50701, 3%nat); (50702, 3%nat); (50704, 2%nat); (50707, 2%nat); (50708, 2%nat); (50709, 2%nat);
(50710, 2%nat); (50711, 2%nat); (50712, 3%nat); (50713, 3%nat); (50715, 2%nat); (50716, 3%nat); (50718, 3%nat); (50719, 3%nat); (50945, 3%nat); (50946, 3%nat);
(50947, 4%nat); (50948, 4%nat); (50949, 4%nat); (50950, 4%nat); (50951, 3%nat); (50952, 3%nat); (50953, 3%nat); (50955, 2%nat); (50959, 2%nat); (50962, 2%nat);
(50964, 3%nat); (50965, 3%nat); (50966, 2%nat); (50985, 2%nat); (50986, 2%nat); (50987, 2%nat); (50988, 2%nat); (50989, 2%nat); (50992, 2%nat); (50995, 3%nat);
(50996, 2%nat); (50997, 2%nat); (50999, 3%nat); (51000, 4%nat); (51005, 3%nat); (51006, 3%nat); (51015, 3%nat); (51017, 4%nat); (51018, 2%nat); (51020, 3%nat);
(51022, 4%nat); (51023, 3%nat); (51024, 3%nat); (51025, 3%nat); (51026, 3%nat); (51027, 3%nat); (51028, 3%nat); (51030, 3%nat); (51031, 2%nat); (51033, 3%nat);
(51034, 3%nat); (51035, 3%nat); (51040, 4%nat); (51045, 2%nat); (51126, 3%nat); (51201, 3%nat); (51202, 3%nat); (51203, 3%nat); (51204, 3%nat); (51205, 4%nat);
(51207, 3%nat); (51209, 4%nat); (51210, 2%nat); (51211, 2%nat); (51212, 2%nat); (51213, 3%nat); (51221, 2%nat); (51222, 2%nat); (51223, 3%nat); (51457, 3%nat);
(51458, 3%nat); (51459, 3%nat); (51460, 3%nat); (51461, 3%nat); (51462, 3%nat); (51463, 3%nat); (51464, 3%nat); (51467, 3%nat); (51468, 3%nat); (51469, 3%nat);
(51470, 3%nat); (51471, 3%nat); (51472, 3%nat); (51473, 3%nat); (51474, 3%nat); (51475, 3%nat); (51476, 3%nat); (51496, 3%nat); (51497, 3%nat); (51498, 3%nat);
(51499, 3%nat); (51500, 3%nat); (51501, 3%nat); (51502, 3%nat); (51503, 3%nat); (51504, 3%nat); (51505, 3%nat); (51506, 3%nat); (51507, 3%nat); (51508, 3%nat);
(51509, 3%nat); (51510, 2%nat); (51511, 3%nat); (51516, 4%nat); (51517, 5%nat); (51518, 5%nat); (51519, 5%nat); (51520, 5%nat); (51521, 5%nat); (51522, 5%nat);
(51526, 2%nat); (51527, 3%nat); (51713, 4%nat); (51714, 4%nat); (51715, 4%nat); (51716, 4%nat); (51717, 4%nat); (51718, 4%nat); (51719, 4%nat); (51720, 2%nat);
(51721, 2%nat); (51722, 2%nat); (51726, 3%nat); (51727, 3%nat); (51728, 3%nat); (51731, 2%nat); (51732, 2%nat); (51735, 3%nat); (51736, 3%nat); (51738, 2%nat);
(51739, 2%nat); (51740, 2%nat); (51742, 2%nat); (51762, 3%nat); (51764, 2%nat); (51767, 3%nat); (51772, 2%nat); (51773, 2%nat); (51774, 2%nat); (51775, 2%nat);
(51776, 2%nat); (51777, 2%nat); (51778, 2%nat); (51969, 3%nat); (51970, 3%nat); (51973, 2%nat); (51975, 2%nat); (51976, 2%nat); (51977, 3%nat); (51978, 2%nat);
(51979, 2%nat); (52225, 3%nat); (52226, 3%nat); (52227, 4%nat); (52228, 4%nat); (52229, 4%nat); (52230, 3%nat); (52231, 4%nat); (52238, 2%nat); (52239, 2%nat);
(52240, 3%nat); (52241, 2%nat); (52242, 3%nat); (52243, 4%nat); (52244, 4%nat); (52245, 4%nat); (52246, 4%nat); (52247, 4%nat); (52248, 5%nat); (52249, 5%nat);
(52250, 2%nat); (52251, 4%nat); (52252, 2%nat); (52269, 2%nat); (52274, 2%nat); (52275, 2%nat); (52276, 2%nat); (52277, 2%nat); (52282, 2%nat); (52283, 2%nat);
(52285, 3%nat); (52294, 2%nat); (52512, 2%nat); (52522, 2%nat); (52993, 2%nat); (52994, 2%nat); (52995, 2%nat); (52996, 2%nat); (52999, 2%nat); (53000, 3%nat);
(53001, 2%nat); (53249, 2%nat); (53268, 2%nat); (53269, 2%nat); (53270, 2%nat); (53274, 3%nat); (53275, 3%nat); (53278, 3%nat); (53279, 4%nat); (53280, 4%nat);
(53281, 4%nat); (53282, 5%nat); (53283, 5%nat); (53284, 5%nat); (53285, 5%nat); (53286, 5%nat); (53287, 5%nat); (53288, 4%nat); (53298, 2%nat); (53300, 2%nat);
(53308, 2%nat); (53309, 2%nat); (53319, 6%nat); (53320, 6%nat); (53321, 6%nat); (53322, 4%nat); (53323, 5%nat); (53324, 5%nat); (53325, 5%nat); (53326, 5%nat);
(53327, 5%nat); (53328, 5%nat); (53329, 5%nat); (53761, 3%nat); (53763, 3%nat); (53764, 3%nat); (54532, 3%nat); (59393, 2%nat); (59399, 2%nat); (59400, 2%nat);
(59401, 2%nat)].

Definition depths_D0000000000000025000 : list (Z * nat) := [
(49156, 2%nat); (49162, 2%nat); (49422, 2%nat); (49433, 2%nat); (49434, 2%nat); (49435, 3%nat); (49436, 2%nat); (49437, 2%nat); (49438, 2%nat); (49439, 2%nat);
(49440, 2%nat); (49441, 2%nat); (49442, 2%nat); (49443, 2%nat); (49444, 2%nat); (49445, 2%nat); (49446, 2%nat); (49447, 2%nat); (49448, 2%nat); (49449, 2%nat);
(49450, 3%nat); (49451, 2%nat); (49452, 2%nat); (49453, 2%nat); (49455, 3%nat); (49459, 2%nat); (49463, 2%nat); (49466, 3%nat); (49467, 2%nat); (49470, 2%nat);
(49474, 2%nat); (49480, 2%nat); (49483, 2%nat); (49498, 2%nat); (49500, 2%nat); (49501, 3%nat); (49518, 2%nat); (49519, 2%nat); (49521, 2%nat); (49522, 2%nat);
(49528, 4%nat); (49529, 3%nat); (49530, 2%nat); (49531, 2%nat); (49534, 2%nat); (49675, 2%nat); (49676, 2%nat); (49677, 2%nat); (49688, 2%nat); (49695, 2%nat);
(49699, 2%nat); (49707, 2%nat); (49718, 2%nat); (49721, 3%nat); (49724, 2%nat); (49731, 2%nat); (49748, 3%nat); (49749, 2%nat); (49942, 2%nat); (49943, 2%nat);
(49944, 2%nat); (49960, 3%nat); (50434, 2%nat); (50435, 2%nat); (50436, 3%nat); (50439, 3%nat); (50440, 2%nat); (50441, 3%nat); (50442, 3%nat); (50443, 4%nat);
(50450, 3%nat); (50694, 2%nat); (50695, 2%nat); (50699, 2%nat); (50700, 2%nat); (50701, 3%nat); (50702, 3%nat); (50704, 2%nat); (50707, 2%nat); (50708, 2%nat);
(50709, 2%nat); (50710, 2%nat); (50711, 2%nat); (50712, 3%nat); (50713, 3%nat); (50715, 2%nat); (50716, 3%nat); (50718, 3%nat); (50719, 3%nat); (50945, 3%nat);
(50946, 3%nat); (50947, 4%nat); (50948, 4%nat); (50949, 4%nat); (50950, 4%nat); (50951, 3%nat); (50952, 3%nat); (50953, 3%nat); (50955, 2%nat); (50959, 2%nat);
(50962, 2%nat); (50964, 3%nat); (50965, 3%nat); (50966, 2%nat); (50985, 2%nat); (50986, 2%nat); (50987, 2%nat); (50988, 2%nat); (50989, 2%nat); (50992, 2%nat);
(50995, 3%nat); (50996, 2%nat); (50997, 2%nat); (50999, 3%nat); (51000, 4%nat); (51005, 3%nat); (51006, 3%nat); (51015, 3%nat); (51017, 4%nat); (51018, 2%nat);
(51020, 3%nat); (51022, 4%nat); (51023, 3%nat); (51024, 3%nat); (51025, 3%nat); (51026, 3%nat); (51027, 3%nat); (51028, 3%nat); (51030, 3%nat); (51031, 2%nat);
(51033, 3%nat); (51034, 3%nat); (51035, 3%nat); (51040, 4%nat); (51045, 2%nat); (51126, 3%nat); (51201, 3%nat); (51202, 3%nat); (51203, 3%nat); (51204, 3%nat);
(51205, 4%nat); (51207, 3%nat); (51209, 4%nat); (51210, 2%nat); (51211, 2%nat); (51212, 2%nat); (51213, 3%nat); (51221, 2%nat); (51222, 2%nat); (51223, 3%nat);
(51457, 3%nat); (51458, 3%nat); (51459, 3%nat); (51460, 3%nat); (51461, 3%nat); (51462, 3%nat); (51463, 3%nat); (51464, 3%nat); (51467, 3%nat); (51468, 3%nat);
(51469, 3%nat); (51470, 3%nat); (51471, 3%nat); (51472, 3%nat); (51473, 3%nat); (51474, 3%nat); (51475, 3%nat); (51476, 3%nat); (51496, 3%nat); (51497, 3%nat);
(51498, 3%nat); (51499, 3%nat); (51500, 3%nat); (51501, 3%nat); (51502, 3%nat); (51503, 3%nat); (51504, 3%nat); (51505, 3%nat); (51506, 3%nat); (51507, 3%nat);
(51508, 3%nat); (51509, 3%nat); (51510, 2%nat); (51511, 3%nat); (51516, 4%nat); (51517, 5%nat); (51518, 5%nat); (51519, 5%nat); (51520, 5%nat); (51521, 5%nat);
(51522, 5%nat); (51526, 2%nat); (51527, 3%nat); (51713, 4%nat); (51714, 4%nat); (51715, 4%nat); (51716, 4%nat); (51717, 4%nat); (51718, 4%nat); (51719, 4%nat);
(51720, 2%nat); (51721, 2%nat); (51722, 2%nat); (51726, 3%nat); (51727, 3%nat); (51728, 3%nat); (51731, 2%nat); (51732, 2%nat); (51735, 3%nat); (51736, 3%nat);
(51738, 2%nat); (51739, 2%nat); (51740, 2%nat); (51742, 2%nat); (51762, 3%nat); (51764, 2%nat); (51767, 3%nat); (51772, 2%nat); (51773, 2%nat); (51774, 2%nat);
(51775, 2%nat); (51776, 2%nat); (51777, 2%nat); (51778, 2%nat); (51969, 3%nat); (51970, 3%nat); (51973, 2%nat); (51975, 2%nat); (51976, 2%nat); (51977, 3%nat);
(51978, 2%nat); (51979, 2%nat); (52225, 3%nat); (52226, 3%nat); (52227, 4%nat); (52228, 4%nat); (52229, 4%nat); (52230, 3%nat); (52231, 4%nat); (52238, 2%nat);
(52239, 2%nat); (52240, 3%nat); (52241, 2%nat); (52242, 3%nat); (52243, 4%nat); (52244, 4%nat); (52245, 4%nat); (52246, 4%nat); (52247, 4%nat); (52248, 5%nat);
(52249, 5%nat); (52250, 2%nat); (52251, 4%nat); (52252, 2%nat); (52269, 2%nat); (52274, 2%nat); (52275, 2%nat); (52276, 2%nat); (52277, 2%nat); (52282, 2%nat);
(52283, 2%nat); (52285, 3%nat); (52294, 2%nat); (52512, 2%nat); (52522, 2%nat); (52993, 2%nat); (52994, 2%nat); (52995, 2%nat); (52996, 2%nat); (52999, 2%nat);
(53000, 3%nat); (53001, 2%nat); (53249, 2%nat); (53268, 2%nat); (53269, 2%nat); (53270, 2%nat); (53274, 3%nat); (53275, 3%nat); (53278, 3%nat); (53279, 4%nat);
(53280, 4%nat); (53281, 4%nat); (53282, 5%nat); (53283, 5%nat); (53284, 5%nat); (53285, 5%nat); (53286, 5%nat); (53287, 5%nat); (53288, 4%nat); (53298, 2%nat);
(53300, 2%nat); (53308, 2%nat); (53309, 2%nat); (53319, 6%nat); (53320, 6%nat); (53321, 6%nat); (53322, 4%nat); (53323, 5%nat); (53324, 5%nat); (53325, 5%nat);
(53326, 5%nat); (53327, 5%nat); (53328, 5%nat); (53329, 5%nat); (53761, 3%nat); (53763, 3%nat); (53764, 3%nat); (54532, 3%nat); (59393, 2%nat); (59399, 2%nat);
(59400, 2%nat); (59401, 2%nat); (59404, 2%nat)].

Definition depths_D0000000000000026000 : list (Z * nat) := [
(49156, 2%nat); (49162, 2%nat); (49422, 2%nat); (49433, 2%nat); (49434, 2%nat); (49435, 3%nat); (49436, 2%nat); (49437, 2%nat); (49438, 2%nat); (49439, 2%nat);
(49440, 2%nat); (49441, 2%nat); (49442, 2%nat); (49443, 2%nat); (49444, 2%nat); (49445, 2%nat); (49446, 2%nat); (49447, 2%nat); (49448, 2%nat); (49449, 2%nat);
(49450, 3%nat); (49451, 2%nat); (49452, 2%nat); (49453, 2%nat); (49455, 3%nat); (49459, 2%nat); (49463, 2%nat); (49466, 3%nat); (49467, 2%nat); (49470, 2%nat);
(49474, 2%nat); (49480, 2%nat); (49483, 2%nat); (49498, 2%nat); (49500, 2%nat); (49501, 3%nat); (49518, 2%nat); (49519, 2%nat); (49521, 2%nat); (49522, 2%nat);
(49528, 4%nat); (49529, 3%nat); (49530, 2%nat); (49531, 2%nat); (49534, 2%nat); (49675, 2%nat); (49676, 2%nat); (49677, 2%nat); (49688, 2%nat); (49695, 2%nat);
(49699, 2%nat); (49707, 2%nat); (49718, 2%nat); (49721, 3%nat); (49724, 2%nat); (49731, 2%nat); (49748, 3%nat); (49749, 2%nat); (49942, 2%nat); (49943, 2%nat);
(49944, 2%nat); (49960, 3%nat); (50434, 2%nat); (50435, 2%nat); (50436, 3%nat); (50439, 3%nat); (50440, 2%nat); (50441, 3%nat); (50442, 3%nat); (50443, 4%nat);
(50450, 3%nat); (50694, 2%nat); (50695, 2%nat); (50699, 2%nat); (50700, 2%nat); (50701, 3%nat); (50702, 3%nat); (50704, 2%nat); (50707, 2%nat); (50708, 2%nat);
(50709, 2%nat); (50710, 2%nat); (50711, 2%nat); (50712, 3%nat); (50713, 3%nat); (50715, 2%nat); (50716, 3%nat); (50718, 3%nat); (50719, 3%nat); (50945, 3%nat);
(50946, 3%nat); (50947, 4%nat); (50948, 4%nat); (50949, 4%nat); (50950, 4%nat); (50951, 3%nat); (50952, 3%nat); (50953, 3%nat); (50955, 2%nat); (50959, 2%nat);
(50962, 2%nat); (50964, 3%nat); (50965, 3%nat); (50966, 2%nat); (50985, 2%nat); (50986, 2%nat); (50987, 2%nat); (50988, 2%nat); (50989, 2%nat); (50992, 2%nat);
(50995, 3%nat); (50996, 2%nat); (50997, 2%nat); (50999, 3%nat); (51000, 4%nat); (51005, 3%nat); (51006, 3%nat); (51015, 3%nat); (51017, 4%nat); (51018, 2%nat);
(51020, 3%nat); (51022, 4%nat); (51023, 3%nat); (51024, 3%nat); (51025, 3%nat); (51026, 3%nat); (51027, 3%nat); (51028, 3%nat); (51030, 3%nat); (51031, 2%nat);
(51033, 3%nat); (51034, 3%nat); (51035, 3%nat); (51040, 4%nat); (51045, 2%nat); (51046, 2%nat); (51126, 3%nat); (51201, 3%nat); (51202, 3%nat); (51203, 3%nat);
(51204, 3%nat); (51205, 4%nat); (51207, 3%nat); (51209, 4%nat); (51210, 2%nat); (51211, 2%nat); (51212, 2%nat); (51213, 3%nat); (51215, 2%nat); (51216, 2%nat);
(51221, 2%nat); (51222, 2%nat); (51223, 3%nat); (51457, 3%nat); (51458, 3%nat); (51459, 3%nat); (51460, 3%nat); (51461, 3%nat); (51462, 3%nat); (51463, 3%nat);
(51464, 3%nat); (51467, 3%nat); (51468, 3%nat); (51469, 3%nat); (51470, 3%nat); (51471, 3%nat); (51472, 3%nat); (51473, 3%nat); (51474, 3%nat); (51475, 3%nat);
(51476, 3%nat); (51496, 3%nat); (51497, 3%nat); (51498, 3%nat); (51499, 3%nat); (51500, 3%nat); (51501, 3%nat); (51502, 3%nat); (51503, 3%nat); (51504, 3%nat);
(51505, 3%nat); (51506, 3%nat); (51507, 3%nat); (51508, 3%nat); (51509, 3%nat); (51510, 2%nat); (51511, 3%nat); (51516, 4%nat); (51517, 5%nat); (51518, 5%nat);
(51519, 5%nat); (51520, 5%nat); (51521, 5%nat); (51522, 5%nat); (51526, 2%nat); (51527, 3%nat); (51713, 4%nat); (51714, 4%nat); (51715, 4%nat); (51716, 4%nat);
(51717, 4%nat); (51718, 4%nat); (51719, 4%nat); (51720, 2%nat); (51721, 2%nat); (51722, 2%nat); (51726, 3%nat); (51727, 3%nat); (51728, 3%nat); (51731, 2%nat);
(51732, 2%nat); (51735, 3%nat); (51736, 3%nat); (51738, 2%nat); (51739, 2%nat); (51740, 2%nat); (51742, 2%nat); (51762, 3%nat); (51764, 2%nat); (51767, 3%nat);
(51772, 2%nat); (51773, 2%nat); (51774, 2%nat); (51775, 2%nat); (51776, 2%nat); (51777, 2%nat); (51778, 2%nat); (51969, 3%nat); (51970, 3%nat); (51973, 2%nat);
(51975, 2%nat); (51976, 2%nat); (51977, 3%nat); (51978, 2%nat); (51979, 2%nat); (52225, 3%nat); (52226, 3%nat); (52227, 4%nat); (52228, 4%nat); (52229, 4%nat);
(52230, 3%nat); (52231, 4%nat); (52238, 2%nat); (52239, 2%nat); (52240, 3%nat); (52241, 2%nat); (52242, 3%nat); (52243, 4%nat); (52244, 4%nat); (52245, 4%nat);
(52246, 4%nat); (52247, 4%nat); (52248, 5%nat); (52249, 5%nat); (52250, 2%nat); (52251, 4%nat); (52252, 2%nat); (52269, 2%nat); (52274, 2%nat); (52275, 2%nat);
(52276, 2%nat); (52277, 2%nat); (52282, 2%nat); (52283, 2%nat); (52285, 3%nat); (52294, 2%nat); (52512, 2%nat); (52522, 2%nat); (52993, 2%nat); (52994, 2%nat);
(52995, 2%nat); (52996, 2%nat); (52999, 2%nat); (53000, 3%nat); (53001, 2%nat); (53249, 2%nat); (53268, 2%nat); (53269, 2%nat); (53270, 2%nat); (53274, 3%nat);
(53275, 3%nat); (53278, 3%nat); (53279, 4%nat); (53280, 4%nat); (53281, 4%nat); (53282, 5%nat); (53283, 5%nat); (53284, 5%nat); (53285, 5%nat); (53286, 5%nat);
(53287, 5%nat); (53288, 4%nat); (53298, 2%nat); (53300, 2%nat); (53308, 2%nat); (53309, 2%nat); (53319, 6%nat); (53320, 6%nat); (53321, 6%nat); (53322, 4%nat);
(53323, 5%nat); (53324, 5%nat); (53325, 5%nat); (53326, 5%nat); (53327, 5%nat); (53328, 5%nat); (53329, 5%nat); (53761, 3%nat); (53763, 3%nat); (53764, 3%nat);
(54532, 3%nat); (59393, 2%nat); (59399, 2%nat); (59400, 2%nat); (59401, 2%nat); (59404, 2%nat)].

Definition depths_D0000000000000027000 : list (Z * nat) := [
(49156, 2%nat); (49162, 2%nat); (49422, 2%nat); (49433, 2%nat); (49434, 2%nat); (49435, 3%nat); (49436, 2%nat); (49437, 2%nat); (49438, 2%nat); (49439, 2%nat);
(49440, 2%nat); (49441, 2%nat); (49442, 2%nat); (49443, 2%nat); (49444, 2%nat); (49445, 2%nat); (49446, 2%nat); (49447, 2%nat); (49448, 2%nat); (49449, 2%nat);
(49450, 3%nat); (49451, 2%nat); (49452, 2%nat); (49453, 2%nat); (49455, 3%nat); (49459, 2%nat); (49463, 2%nat); (49466, 3%nat); (49467, 2%nat); (49470, 2%nat);
(49474, 2%nat); (49480, 2%nat); (49483, 2%nat); (49498, 2%nat); (49500, 2%nat); (49501, 3%nat); (49518, 2%nat); (49519, 2%nat); (49521, 2%nat); (49522, 2%nat);
(49528, 4%nat); (49529, 3%nat); (49530, 2%nat); (49531, 2%nat); (49534, 2%nat); (49675, 2%nat); (49676, 2%nat); (49677, 2%nat); (49688, 2%nat); (49695, 2%nat);
(49699, 2%nat); (49707, 2%nat); (49718, 2%nat); (49721, 3%nat); (49724, 2%nat); (49726, 3%nat); (49727, 2%nat); (49731, 2%nat); (49748, 3%nat); (49749, 2%nat);
(49757, 2%nat); (49942, 2%nat); (49943, 2%nat); (49944, 2%nat); (49960, 3%nat); (50434, 2%nat); (50435, 2%nat); (50436, 3%nat); (50439, 3%nat); (50440, 2%nat);
(50441, 3%nat); (50442, 3%nat); (50443, 4%nat); (50450, 3%nat); (50694, 2%nat); (50695, 2%nat); (50699, 2%nat); (50700, 2%nat); (50701, 3%nat); (50702, 3%nat);
(50704, 2%nat); (50707, 2%nat); (50708, 2%nat); (50709, 2%nat); (50710, 2%nat); (50711, 2%nat); (50712, 3%nat); (50713, 3%nat); (50715, 2%nat); (50716, 3%nat);
(50718, 3%nat); (50719, 3%nat); (50945, 3%nat); (50946, 3%nat); (50947, 4%nat); (50948, 4%nat); (50949, 4%nat); (50950, 4%nat); (50951, 3%nat); (50952, 3%nat);
(50953, 3%nat); (50955, 2%nat); (50959, 2%nat); (50962, 2%nat); (50964, 3%nat); (50965, 3%nat); (50966, 2%nat); (50985, 2%nat); (50986, 2%nat); (50987, 2%nat);
(50988, 2%nat); (50989, 2%nat); (50992, 2%nat); (50995, 3%nat); (50996, 2%nat); (50997, 2%nat); (50999, 3%nat); (51000, 4%nat); (51005, 3%nat); (51006, 3%nat);
(51015, 3%nat); (51017, 4%nat); (51018, 2%nat); (51020, 3%nat); (51022, 4%nat); (51023, 3%nat); (51024, 3%nat); (51025, 3%nat); (51026, 3%nat); (51027, 3%nat);
(51028, 3%nat); (51030, 3%nat); (51031, 2%nat); (51033, 3%nat); (51034, 3%nat); (51035, 3%nat); (51040, 4%nat); (51045, 2%nat); (51046, 2%nat); (51126, 3%nat);
(51201, 3%nat); (51202, 3%nat); (51203, 3%nat); (51204, 3%nat); (51205, 4%nat); (51207, 3%nat); (51209, 4%nat); (51210, 2%nat); (51211, 2%nat); (51212, 2%nat);
(51213, 3%nat); (51214, 4%nat); (51215, 2%nat); (51216, 2%nat); (51221, 2%nat); (51222, 2%nat); (51223, 3%nat); (51457, 3%nat); (51458, 3%nat); (51459, 3%nat);
(51460, 3%nat); (51461, 3%nat); (51462, 3%nat); (51463, 3%nat); (51464, 3%nat); (51467, 3%nat); (51468, 3%nat); (51469, 3%nat); (51470, 3%nat); (51471, 3%nat);
(51472, 3%nat); (51473, 3%nat); (51474, 3%nat); (51475, 3%nat); (51476, 3%nat); (51496, 3%nat); (51497, 3%nat); (51498, 3%nat); (51499, 3%nat); (51500, 3%nat);
(51501, 3%nat); (51502, 3%nat); (51503, 3%nat); (51504, 3%nat); (51505, 3%nat); (51506, 3%nat); (51507, 3%nat); (51508, 3%nat); (51509, 3%nat); (51510, 2%nat);
(51511, 3%nat); (51516, 4%nat); (51517, 5%nat); (51518, 5%nat); (51519, 5%nat); (51520, 5%nat); (51521, 5%nat); (51522, 5%nat); (51526, 2%nat); (51527, 3%nat);
(51713, 4%nat); (51714, 4%nat); (51715, 4%nat); (51716, 4%nat); (51717, 4%nat); (51718, 4%nat); (51719, 4%nat); (51720, 2%nat); (51721, 2%nat); (51722, 2%nat);
(51726, 3%nat); (51727, 3%nat); (51728, 3%nat); (51731, 2%nat); (51732, 2%nat); (51735, 3%nat); (51736, 3%nat); (51738, 2%nat); (51739, 2%nat); (51740, 2%nat);
(51742, 2%nat); (51762, 3%nat); (51764, 2%nat); (51767, 3%nat); (51772, 2%nat); (51773, 2%nat); (51774, 2%nat); (51775, 2%nat); (51776, 2%nat); (51777, 2%nat);
(51778, 2%nat); (51969, 3%nat); (51970, 3%nat); (51973, 2%nat); (51975, 2%nat); (51976, 2%nat); (51977, 3%nat); (51978, 2%nat); (51979, 2%nat); (52225, 3%nat);
(52226, 3%nat); (52227, 4%nat); (52228, 4%nat); (52229, 4%nat); (52230, 3%nat); (52231, 4%nat); (52238, 2%nat); (52239, 2%nat); (52240, 3%nat); (52241, 2%nat);
(52242, 3%nat); (52243, 4%nat); (52244, 4%nat); (52245, 4%nat); (52246, 4%nat); (52247, 4%nat); (52248, 5%nat); (52249, 5%nat); (52250, 2%nat); (52251, 4%nat);
(52252, 2%nat); (52269, 2%nat); (52274, 2%nat); (52275, 2%nat); (52276, 2%nat); (52277, 2%nat); (52282, 2%nat); (52283, 2%nat); (52285, 3%nat); (52294, 2%nat);
(52512, 2%nat); (52522, 2%nat); (52993, 2%nat); (52994, 2%nat); (52995, 2%nat); (52996, 2%nat); (52999, 2%nat); (53000, 3%nat); (53001, 2%nat); (53249, 2%nat);
(53268, 2%nat); (53269, 2%nat); (53270, 2%nat); (53274, 3%nat); (53275, 3%nat); (53278, 3%nat); (53279, 4%nat); (53280, 4%nat); (53281, 4%nat); (53282, 5%nat);
(53283, 5%nat); (53284, 5%nat); (53285, 5%nat); (53286, 5%nat); (53287, 5%nat); (53288, 4%nat); (53298, 2%nat); (53300, 2%nat); (53308, 2%nat); (53309, 2%nat);
(53319, 6%nat); (53320, 6%nat); (53321, 6%nat); (53322, 4%nat); (53323, 5%nat); (53324, 5%nat); (53325, 5%nat); (53326, 5%nat); (53327, 5%nat); (53328, 5%nat);
(53329, 5%nat); (53761, 3%nat); (53763, 3%nat); (53764, 3%nat); (54532, 3%nat); (59393, 2%nat); (59399, 2%nat); (59400, 2%nat); (59401, 2%nat); (59404, 2%nat)].

Definition depths_D0000000000000028000 : list (Z * nat) := [
(49156, 2%nat); (49162, 2%nat); (49422, 2%nat); (49433, 2%nat); (49434, 2%nat); (49435, 3%nat); (49436, 2%nat); (49437, 2%nat); (49438, 2%nat); (49439, 2%nat);
(49440, 2%nat); (49441, 2%nat); (49442, 2%nat); (49443, 2%nat); (49444, 2%nat); (49445, 2%nat); (49446, 2%nat); (49447, 2%nat); (49448, 2%nat); (49449, 2%nat);
(49450, 3%nat); (49451, 2%nat); (49452, 2%nat); (49453, 2%nat); (49455, 3%nat); (49459, 2%nat); (49463, 2%nat); (49466, 3%nat); (49467, 2%nat); (49470, 2%nat);
(49474, 2%nat); (49480, 2%nat); (49483, 2%nat); (49498, 2%nat); (49500, 2%nat); (49501, 3%nat); (49518, 2%nat); (49519, 2%nat); (49521, 2%nat); (49522, 2%nat);
(49528, 4%nat); (49529, 3%nat); (49530, 2%nat); (49531, 2%nat); (49534, 2%nat); (49675, 2%nat); (49676, 2%nat); (49677, 2%nat); (49688, 2%nat); (49695, 2%nat);
(49699, 2%nat); (49707, 2%nat); (49718, 2%nat); (49721, 3%nat); (49724, 2%nat); (49726, 3%nat); (49727, 2%nat); (49731, 2%nat); (49748, 3%nat); (49749, 2%nat);
(49757, 2%nat); (49942, 2%nat); (49943, 2%nat); (49944, 2%nat); (49960, 3%nat); (50434, 2%nat); (50435, 2%nat); (50436, 3%nat); (50439, 3%nat); (50440, 2%nat);
(50441, 3%nat); (50442, 3%nat); (50443, 4%nat); (50450, 3%nat); (50694, 2%nat); (50695, 2%nat); (50699, 2%nat); (50700, 2%nat); (50701, 3%nat); (50702, 3%nat);
(50704, 2%nat); (50707, 2%nat); (50708, 2%nat); (50709, 2%nat); (50710, 2%nat); (50711, 2%nat); (50712, 3%nat); (50713, 3%nat); (50715, 2%nat); (50716, 3%nat);
(50718, 3%nat); (50719, 3%nat); (50945, 3%nat); (50946, 3%nat); (50947, 4%nat); (50948, 4%nat); (50949, 4%nat); (50950, 4%nat); (50951, 3%nat); (50952, 3%nat);
(50953, 3%nat); (50955, 2%nat); (50959, 2%nat); (50962, 2%nat); (50964, 3%nat); (50965, 3%nat); (50966, 2%nat); (50985, 2%nat); (50986, 2%nat); (50987, 2%nat);
(50988, 2%nat); (50989, 2%nat); (50992, 2%nat); (50995, 3%nat); (50996, 2%nat); (50997, 2%nat); (50999, 3%nat); (51000, 4%nat); (51005, 3%nat); (51006, 3%nat);
(51015, 3%nat); (51017, 4%nat); (51018, 2%nat); (51020, 3%nat); (51022, 4%nat); (51023, 3%nat); (51024, 3%nat); (51025, 3%nat); (51026, 3%nat); (51027, 3%nat);
(51028, 3%nat); (51030, 3%nat); (51031, 2%nat); (51033, 3%nat); (51034, 3%nat); (51035, 3%nat); (51040, 4%nat); (51045, 2%nat); (51046, 2%nat); (51126, 3%nat);
(51201, 3%nat); (51202, 3%nat); (51203, 3%nat); (51204, 3%nat); (51205, 4%nat); (51207, 3%nat); (51209, 4%nat); (51210, 2%nat); (51211, 2%nat); (51212, 2%nat);
(51213, 3%nat); (51214, 4%nat); (51215, 2%nat); (51216, 2%nat); (51221, 2%nat); (51222, 2%nat); (51223, 3%nat); (51457, 3%nat); (51458, 3%nat); (51459, 3%nat);
(51460, 3%nat); (51461, 3%nat); (51462, 3%nat); (51463, 3%nat); (51464, 3%nat); (51467, 3%nat); (51468, 3%nat); (51469, 3%nat); (51470, 3%nat); (51471, 3%nat);
(51472, 3%nat); (51473, 3%nat); (51474, 3%nat); (51475, 3%nat); (51476, 3%nat); (51477, 3%nat); (51478, 3%nat); (51479, 3%nat); (51496, 3%nat); (51497, 3%nat);
(51498, 3%nat); (51499, 3%nat); (51500, 3%nat); (51501, 3%nat); (51502, 3%nat); (51503, 3%nat); (51504, 3%nat); (51505, 3%nat); (51506, 3%nat); (51507, 3%nat);
(51508, 3%nat); (51509, 3%nat); (51510, 2%nat); (51511, 3%nat); (51516, 4%nat); (51517, 5%nat); (51518, 5%nat); (51519, 5%nat); (51520, 5%nat); (51521, 5%nat);
(51522, 5%nat); (51526, 2%nat); (51527, 3%nat); (51713, 4%nat); (51714, 4%nat); (51715, 4%nat); (51716, 4%nat); (51717, 4%nat); (51718, 4%nat); (51719, 4%nat);
(51720, 2%nat); (51721, 2%nat); (51722, 2%nat); (51726, 3%nat); (51727, 3%nat); (51728, 3%nat); (51731, 2%nat); (51732, 2%nat); (51735, 3%nat); (51736, 3%nat);
(51738, 2%nat); (51739, 2%nat); (51740, 2%nat); (51742, 2%nat); (51762, 3%nat); (51764, 2%nat); (51767, 3%nat); (51772, 2%nat); (51773, 2%nat); (51774, 2%nat);
(51775, 2%nat); (51776, 2%nat); (51777, 2%nat); (51778, 2%nat); (51969, 3%nat); (51970, 3%nat); (51973, 2%nat); (51975, 2%nat); (51976, 2%nat); (51977, 3%nat);
(51978, 2%nat); (51979, 2%nat); (52225, 3%nat); (52226, 3%nat); (52227, 4%nat); (52228, 4%nat); (52229, 4%nat); (52230, 3%nat); (52231, 4%nat); (52238, 2%nat);
(52239, 2%nat); (52240, 3%nat); (52241, 2%nat); (52242, 3%nat); (52243, 4%nat); (52244, 4%nat); (52245, 4%nat); (52246, 4%nat); (52247, 4%nat); (52248, 5%nat);
(52249, 5%nat); (52250, 2%nat); (52251, 4%nat); (52252, 2%nat); (52269, 2%nat); (52274, 2%nat); (52275, 2%nat); (52276, 2%nat); (52277, 2%nat); (52282, 2%nat);
(52283, 2%nat); (52285, 3%nat); (52294, 2%nat); (52512, 2%nat); (52522, 2%nat); (52993, 2%nat); (52994, 2%nat); (52995, 2%nat); (52996, 2%nat); (52999, 2%nat);
(53000, 3%nat); (53001, 2%nat); (53249, 2%nat); (53268, 2%nat); (53269, 2%nat); (53270, 2%nat); (53274, 3%nat); (53275, 3%nat); (53278, 3%nat); (53279, 4%nat);
(53280, 4%nat); (53281, 4%nat); (53282, 5%nat); (53283, 5%nat); (53284, 5%nat); (53285, 5%nat); (53286, 5%nat); (53287, 5%nat); (53288, 4%nat); (53298, 2%nat);
(53300, 2%nat); (53308, 2%nat); (53309, 2%nat); (53319, 6%nat); (53320, 6%nat); (53321, 6%nat); (53322, 4%nat); (53323, 5%nat); (53324, 5%nat); (53325, 5%nat);
(53326, 5%nat); (53327, 5%nat); (53328, 5%nat); (53329, 5%nat); (53761, 3%nat); (53763, 3%nat); (53764, 3%nat); (54532, 3%nat); (59393, 2%nat); (59399, 2%nat);
(59400, 2%nat); (59401, 2%nat); (59404, 2%nat)].

Definition depths_D0000000000000029000 : list (Z * nat) := [
(49156, 2%nat); (49162, 2%nat); (49422, 2%nat); (49433, 2%nat); (49434, 2%nat); (49435, 3%nat); (49436, 2%nat); (49437, 2%nat); (49438, 2%nat); (49439, 2%nat);
(49440, 2%nat); (49441, 2%nat); (49442, 2%nat); (49443, 2%nat); (49444, 2%nat); (49445, 2%nat); (49446, 2%nat); (49447, 2%nat); (49448, 2%nat); (49449, 2%nat);
(49450, 3%nat); (49451, 2%nat); (49452, 2%nat); (49453, 2%nat); (49455, 3%nat); (49459, 2%nat); (49463, 2%nat); (49464, 2%nat); (49466, 3%nat); (49467, 2%nat);
(49470, 2%nat); (49474, 2%nat); (49480, 2%nat); (49483, 2%nat); (49498, 2%nat); (49500, 2%nat); (49501, 3%nat); (49518, 2%nat); (49519, 2%nat); (49521, 2%nat);
(49522, 2%nat); (49528, 4%nat); (49529, 3%nat); (49530, 2%nat); (49531, 2%nat); (49534, 2%nat); (49675, 2%nat); (49676, 2%nat); (49677, 2%nat); (49688, 2%nat);
(49695, 2%nat); (49699, 2%nat); (49707, 2%nat); (49718, 2%nat); (49721, 3%nat); (49724, 2%nat); (49726, 3%nat); (49727, 2%nat); (49731, 2%nat); (49748, 3%nat);
(49749, 2%nat); (49757, 2%nat); (49942, 2%nat); (49943, 2%nat); (49944, 2%nat); (49960, 3%nat); (50434, 2%nat); (50435, 2%nat); (50436, 3%nat); (50439, 3%nat);
(50440, 2%nat); (50441, 3%nat); (50442, 3%nat); (50443, 4%nat); (50450, 3%nat); (50694, 2%nat); (50695, 2%nat); (50699, 2%nat); (50700, 2%nat); (50701, 3%nat);
(50702, 3%nat); (50704, 2%nat); (50707, 2%nat); (50708, 2%nat); (50709, 2%nat); (50710, 2%nat); (50711, 2%nat); (50712, 3%nat); (50713, 3%nat); (50715, 2%nat);
(50716, 3%nat); (50718, 3%nat); (50719, 3%nat); (50945, 3%nat); (50946, 3%nat); (50947, 4%nat); (50948, 4%nat); (50949, 4%nat); (50950, 4%nat); (50951, 3%nat);
(50952, 3%nat); (50953, 3%nat); (50955, 2%nat); (50959, 2%nat); (50962, 2%nat); (50964, 3%nat); (50965, 3%nat); (50966, 2%nat); (50985, 2%nat); (50986, 2%nat);
(50987, 2%nat); (50988, 2%nat); (50989, 2%nat); (50992, 2%nat); (50995, 3%nat); (50996, 2%nat); (50997, 2%nat); (50999, 3%nat); (51000, 4%nat); (51005, 3%nat);
(51006, 3%nat); (51015, 3%nat); (51017, 4%nat); (51018, 2%nat); (51020, 3%nat); (51022, 4%nat); (51023, 3%nat); (51024, 3%nat); (51025, 3%nat); (51026, 3%nat);
(51027, 3%nat); (51028, 3%nat); (51030, 3%nat); (51031, 2%nat); (51033, 3%nat); (51034, 3%nat); (51035, 3%nat); (51040, 4%nat); (51045, 2%nat); (51046, 2%nat);
(51126, 3%nat); (51201, 3%nat); (51202, 3%nat); (51203, 3%nat); (51204, 3%nat); (51205, 4%nat); (51207, 3%nat); (51209, 4%nat); (51210, 2%nat); (51211, 2%nat);
(51212, 2%nat); (51213, 3%nat); (51214, 4%nat); (51215, 2%nat); (51216, 2%nat); (51217, 3%nat); (51221, 2%nat); (51222, 2%nat); (51223, 3%nat); (51457, 3%nat);
(51458, 3%nat); (51459, 3%nat); (51460, 3%nat); (51461, 3%nat); (51462, 3%nat); (51463, 3%nat); (51464, 3%nat); (51467, 3%nat); (51468, 3%nat); (51469, 3%nat);
(51470, 3%nat); (51471, 3%nat); (51472, 3%nat); (51473, 3%nat); (51474, 3%nat); (51475, 3%nat); (51476, 3%nat); (51477, 3%nat); (51478, 3%nat); (51479, 3%nat);
(51496, 3%nat); (51497, 3%nat); (51498, 3%nat); (51499, 3%nat); (51500, 3%nat); (51501, 3%nat); (51502, 3%nat); (51503, 3%nat); (51504, 3%nat); (51505, 3%nat);
(51506, 3%nat); (51507, 3%nat); (51508, 3%nat); (51509, 3%nat); (51510, 2%nat); (51511, 3%nat); (51516, 4%nat); (51517, 5%nat); (51518, 5%nat); (51519, 5%nat);
(51520, 5%nat); (51521, 5%nat); (51522, 5%nat); (51526, 2%nat); (51527, 3%nat); (51713, 4%nat); (51714, 4%nat); (51715, 4%nat); (51716, 4%nat); (51717, 4%nat);
(51718, 4%nat); (51719, 4%nat); (51720, 2%nat); (51721, 2%nat); (51722, 2%nat); (51726, 3%nat); (51727, 3%nat); (51728, 3%nat); (51731, 2%nat); (51732, 2%nat);
(51735, 3%nat); (51736, 3%nat); (51738, 2%nat); (51739, 2%nat); (51740, 2%nat); (51742, 2%nat); (51762, 3%nat); (51764, 2%nat); (51767, 3%nat); (51772, 2%nat);
(51773, 2%nat); (51774, 2%nat); (51775, 2%nat); (51776, 2%nat); (51777, 2%nat); (51778, 2%nat); (51969, 3%nat); (51970, 3%nat); (51973, 2%nat); (51975, 2%nat);
(51976, 2%nat); (51977, 3%nat); (51978, 2%nat); (51979, 2%nat); (52225, 3%nat); (52226, 3%nat); (52227, 4%nat); (52228, 4%nat); (52229, 4%nat); (52230, 3%nat);
(52231, 4%nat); (52238, 2%nat); (52239, 2%nat); (52240, 3%nat); (52241, 2%nat); (52242, 3%nat); (52243, 4%nat); (52244, 4%nat); (52245, 4%nat); (52246, 4%nat);
(52247, 4%nat); (52248, 5%nat); (52249, 5%nat); (52250, 2%nat); (52251, 4%nat); (52252, 2%nat); (52269, 2%nat); (52274, 2%nat); (52275, 2%nat); (52276, 2%nat);
(52277, 2%nat); (52282, 2%nat); (52283, 2%nat); (52285, 3%nat); (52294, 2%nat); (52512, 2%nat); (52522, 2%nat); (52993, 2%nat); (52994, 2%nat); (52995, 2%nat);
(52996, 2%nat); (52999, 2%nat); (53000, 3%nat); (53001, 2%nat); (53249, 2%nat); (53268, 2%nat); (53269, 2%nat); (53270, 2%nat); (53274, 3%nat); (53275, 3%nat);
(53278, 3%nat); (53279, 4%nat); (53280, 4%nat); (53281, 4%nat); (53282, 5%nat); (53283, 5%nat); (53284, 5%nat); (53285, 5%nat); (53286, 5%nat); (53287, 5%nat);
(53288, 4%nat); (53298, 2%nat); (53300, 2%nat); (53308, 2%nat); (53309, 2%nat); (53319, 6%nat); (53320, 6%nat); (53321, 6%nat); (53322, 4%nat); (53323, 5%nat);
(53324, 5%nat); (53325, 5%nat); (53326, 5%nat); (53327, 5%nat); (53328, 5%nat); (53329, 5%nat); (53761, 3%nat); (53763, 3%nat); (53764, 3%nat); (54532, 3%nat);
(59393, 2%nat); (59399, 2%nat); (59400, 2%nat); (59401, 2%nat); (59404, 2%nat); (59407, 2%nat)].

Definition depths_D0000000000000030000 : list (Z * nat) := [
(49156, 2%nat); (49162, 2%nat); (49422, 2%nat); (49433, 2%nat); (49434, 2%nat); (49435, 3%nat); (49436, 2%nat); (49437, 2%nat); (49438, 2%nat); (49439, 2%nat);
(49440, 2%nat); (49441, 2%nat); (49442, 2%nat); (49443, 2%nat); (49444, 2%nat); (49445, 2%nat); (49446, 2%nat); (49447, 2%nat); (49448, 2%nat); (49449, 2%nat);
(49450, 3%nat); (49451, 2%nat); (49452, 2%nat); (49453, 2%nat); (49455, 3%nat); (49459, 2%nat); (49463, 2%nat); (49464, 2%nat); (49466, 3%nat); (49467, 2%nat);
(49470, 2%nat); (49474, 2%nat); (49480, 2%nat); (49483, 2%nat); (49498, 2%nat); (49500, 2%nat); (49501, 3%nat); (49518, 2%nat); (49519, 2%nat); (49521, 2%nat);
(49522, 2%nat); (49528, 4%nat); (49529, 3%nat); (49530, 2%nat); (49531, 2%nat); (49534, 2%nat); (49675, 2%nat); (49676, 2%nat); (49677, 2%nat); (49688, 2%nat);
(49695, 2%nat); (49699, 2%nat); (49707, 2%nat); (49718, 2%nat); (49721, 3%nat); (49724, 2%nat); (49726, 3%nat); (49727, 2%nat); (49731, 2%nat); (49748, 3%nat);
(49749, 2%nat); (49757, 2%nat); (49942, 2%nat); (49943, 2%nat); (49944, 2%nat); (49960, 3%nat); (50434, 2%nat); (50435, 2%nat); (50436, 3%nat); (50439, 3%nat);
(50440, 2%nat); (50441, 3%nat); (50442, 3%nat); (50443, 4%nat); (50450, 3%nat); (50694, 2%nat); (50695, 2%nat); (50699, 2%nat); (50700, 2%nat); (50701, 3%nat);
(50702, 3%nat); (50704, 2%nat); (50707, 2%nat); (50708, 2%nat); (50709, 2%nat); (50710, 2%nat); (50711, 2%nat); (50712, 3%nat); (50713, 3%nat); (50715, 2%nat);
(50716, 3%nat); (50718, 3%nat); (50719, 3%nat); (50945, 3%nat); (50946, 3%nat); (50947, 4%nat); (50948, 4%nat); (50949, 4%nat); (50950, 4%nat); (50951, 3%nat);
(50952, 3%nat); (50953, 3%nat); (50955, 2%nat); (50959, 2%nat); (50962, 2%nat); (50964, 3%nat); (50965, 3%nat); (50966, 2%nat); (50985, 2%nat); (50986, 2%nat);
(50987, 2%nat); (50988, 2%nat); (50989, 2%nat); (50992, 2%nat); (50995, 3%nat); (50996, 2%nat); (50997, 2%nat); (50999, 3%nat); (51000, 4%nat); (51005, 3%nat);
(51006, 3%nat); (51015, 3%nat); (51017, 4%nat); (51018, 2%nat); (51020, 3%nat); (51022, 4%nat); (51023, 3%nat); (51024, 3%nat); (51025, 3%nat); (51026, 3%nat);
(51027, 3%nat); (51028, 3%nat); (51030, 3%nat); (51031, 2%nat); (51033, 3%nat); (51034, 3%nat); (51035, 3%nat); (51040, 4%nat); (51045, 2%nat); (51046, 2%nat);
(51126, 3%nat); (51201, 3%nat); (51202, 3%nat); (51203, 3%nat); (51204, 3%nat); (51205, 4%nat); (51207, 3%nat); (51209, 4%nat); (51210, 2%nat); (51211, 2%nat);
(51212, 2%nat); (51213, 3%nat); (51214, 4%nat); (51215, 2%nat); (51216, 2%nat); (51217, 3%nat); (51221, 2%nat); (51222, 2%nat); (51223, 3%nat); (51457, 3%nat);
(51458, 3%nat); (51459, 3%nat); (51460, 3%nat); (51461, 3%nat); (51462, 3%nat); (51463, 3%nat); (51464, 3%nat); (51467, 3%nat); (51468, 3%nat); (51469, 3%nat);
(51470, 3%nat); (51471, 3%nat); (51472, 3%nat); (51473, 3%nat); (51474, 3%nat); (51475, 3%nat); (51476, 3%nat); (51477, 3%nat); (51478, 3%nat); (51479, 3%nat);
(51496, 3%nat); (51497, 3%nat); (51498, 3%nat); (51499, 3%nat); (51500, 3%nat); (51501, 3%nat); (51502, 3%nat); (51503, 3%nat); (51504, 3%nat); (51505, 3%nat);
(51506, 3%nat); (51507, 3%nat); (51508, 3%nat); (51509, 3%nat); (51510, 2%nat); (51511, 3%nat); (51516, 4%nat); (51517, 5%nat); (51518, 5%nat); (51519, 5%nat);
(51520, 5%nat); (51521, 5%nat); (51522, 5%nat); (51526, 2%nat); (51527, 3%nat); (51713, 4%nat); (51714, 4%nat); (51715, 4%nat); (51716, 4%nat); (51717, 4%nat);
(51718, 4%nat); (51719, 4%nat); (51720, 2%nat); (51721, 2%nat); (51722, 2%nat); (51726, 3%nat); (51727, 3%nat); (51728, 3%nat); (51731, 2%nat); (51732, 2%nat);
(51735, 3%nat); (51736, 3%nat); (51738, 2%nat); (51739, 2%nat); (51740, 2%nat); (51742, 2%nat); (51762, 3%nat); (51764, 2%nat); (51767, 3%nat); (51772, 2%nat);
(51773, 2%nat); (51774, 2%nat); (51775, 2%nat); (51776, 2%nat); (51777, 2%nat); (51778, 2%nat); (51780, 2%nat); (51782, 3%nat); (51783, 3%nat); (51784, 3%nat);
(51969, 3%nat); (51970, 3%nat); (51973, 2%nat); (51975, 2%nat); (51976, 2%nat); (51977, 3%nat); (51978, 2%nat); (51979, 2%nat); (52225, 3%nat); (52226, 3%nat);
(52227, 4%nat); (52228, 4%nat); (52229, 4%nat); (52230, 3%nat); (52231, 4%nat); (52238, 2%nat); (52239, 2%nat); (52240, 3%nat); (52241, 2%nat); (52242, 3%nat);
(52243, 4%nat); (52244, 4%nat); (52245, 4%nat); (52246, 4%nat); (52247, 4%nat); (52248, 5%nat); (52249, 5%nat); (52250, 2%nat); (52251, 4%nat); (52252, 2%nat);
(52269, 2%nat); (52274, 2%nat); (52275, 2%nat); (52276, 2%nat); (52277, 2%nat); (52282, 2%nat); (52283, 2%nat); (52285, 3%nat); (52294, 2%nat); (52512, 2%nat);
(52522, 2%nat); (52993, 2%nat); (52994, 2%nat); (52995, 2%nat); (52996, 2%nat); (52999, 2%nat); (53000, 3%nat); (53001, 2%nat); (53249, 2%nat); (53268, 2%nat);
(53269, 2%nat); (53270, 2%nat); (53274, 3%nat); (53275, 3%nat); (53278, 3%nat); (53279, 4%nat); (53280, 4%nat); (53281, 4%nat); (53282, 5%nat); (53283, 5%nat);
(53284, 5%nat); (53285, 5%nat); (53286, 5%nat); (53287, 5%nat); (53288, 4%nat); (53298, 2%nat); (53300, 2%nat); (53308, 2%nat); (53309, 2%nat); (53319, 6%nat);
(53320, 6%nat); (53321, 6%nat); (53322, 4%nat); (53323, 5%nat); (53324, 5%nat); (53325, 5%nat); (53326, 5%nat); (53327, 5%nat); (53328, 5%nat); (53329, 5%nat);
(53761, 3%nat); (53763, 3%nat); (53764, 3%nat); (54532, 3%nat); (59393, 2%nat); (59399, 2%nat); (59400, 2%nat); (59401, 2%nat); (59404, 2%nat); (59407, 2%nat)].

Definition depths_D0000000000000031000 : list (Z * nat) := [
(49156, 2%nat); (49162, 2%nat); (49422, 2%nat); (49433, 2%nat); (49434, 2%nat); (49435, 3%nat); (49436, 2%nat); (49437, 2%nat); (49438, 2%nat); (49439, 2%nat);
(49440, 2%nat); (49441, 2%nat); (49442, 2%nat); (49443, 2%nat); (49444, 2%nat); (49445, 2%nat); (49446, 2%nat); (49447, 2%nat); (49448, 2%nat); (49449, 2%nat);
(49450, 3%nat); (49451, 2%nat); (49452, 2%nat); (49453, 2%nat); (49455, 3%nat); (49459, 2%nat); (49463, 2%nat); (49464, 2%nat); (49466, 3%nat); (49467, 2%nat);
(49470, 2%nat); (49474, 2%nat); (49480, 2%nat); (49483, 2%nat); (49498, 2%nat); (49500, 2%nat); (49501, 3%nat); (49518, 2%nat); (49519, 2%nat); (49521, 2%nat);
(49522, 2%nat); (49528, 4%nat); (49529, 3%nat); (49530, 2%nat); (49531, 2%nat); (49534, 2%nat); (49538, 2%nat); (49539, 2%nat); (49675, 2%nat); (49676, 2%nat);
(49677, 2%nat); (49688, 2%nat); (49695, 2%nat); (49699, 2%nat); (49707, 2%nat); (49718, 2%nat); (49721, 3%nat); (49724, 2%nat); (49726, 3%nat); (49727, 2%nat);
(49731, 2%nat); (49748, 3%nat); (49749, 2%nat); (49757, 2%nat); (49942, 2%nat); (49943, 2%nat); (49944, 2%nat); (49960, 3%nat); (50434, 2%nat); (50435, 2%nat);
(50436, 3%nat); (50439, 3%nat); (50440, 2%nat); (50441, 3%nat); (50442, 3%nat); (50443, 4%nat); (50450, 3%nat); (50694, 2%nat); (50695, 2%nat); (50699, 2%nat);
(50700, 2%nat); (50701, 3%nat); (50702, 3%nat); (50704, 2%nat); (50707, 2%nat); (50708, 2%nat); (50709, 2%nat); (50710, 2%nat); (50711, 2%nat); (50712, 3%nat);
(50713, 3%nat); (50715, 2%nat); (50716, 3%nat); (50718, 3%nat); (50719, 3%nat); (50945, 3%nat); (50946, 3%nat); (50947, 4%nat); (50948, 4%nat); (50949, 4%nat);
(50950, 4%nat); (50951, 3%nat); (50952, 3%nat); (50953, 3%nat); (50955, 2%nat); (50959, 2%nat); (50962, 2%nat); (50964, 3%nat); (50965, 3%nat); (50966, 2%nat);
(50985, 2%nat); (50986, 2%nat); (50987, 2%nat); (50988, 2%nat); (50989, 2%nat); (50992, 2%nat); (50995, 3%nat); (50996, 2%nat); (50997, 2%nat); (50999, 3%nat);
(51000, 4%nat); (51005, 3%nat); (51006, 3%nat); (51015, 3%nat); (51017, 4%nat); (51018, 2%nat); (51020, 3%nat); (51022, 4%nat); (51023, 3%nat); (51024, 3%nat);
(51025, 3%nat); (51026, 3%nat); (51027, 3%nat); (51028, 3%nat); (51030, 3%nat); (51031, 2%nat); (51033, 3%nat); (51034, 3%nat); (51035, 3%nat); (51036, 2%nat);
(51040, 4%nat); (51045, 2%nat); (51046, 2%nat); (51047, 3%nat); (51126, 3%nat); (51201, 3%nat); (51202, 3%nat); (51203, 3%nat); (51204, 3%nat); (51205, 4%nat);
(51207, 3%nat); (51209, 4%nat); (51210, 2%nat); (51211, 2%nat); (51212, 2%nat); (51213, 3%nat); (51214, 4%nat); (51215, 2%nat); (51216, 2%nat); (51217, 3%nat);
(51221, 2%nat); (51222, 2%nat); (51223, 3%nat); (51457, 3%nat); (51458, 3%nat); (51459, 3%nat); (51460, 3%nat); (51461, 3%nat); (51462, 3%nat); (51463, 3%nat);
(51464, 3%nat); (51467, 3%nat); (51468, 3%nat); (51469, 3%nat); (51470, 3%nat); (51471, 3%nat); (51472, 3%nat); (51473, 3%nat); (51474, 3%nat); (51475, 3%nat);
(51476, 3%nat); (51477, 3%nat); (51478, 3%nat); (51479, 3%nat); (51496, 3%nat); (51497, 3%nat); (51498, 3%nat); (51499, 3%nat); (51500, 3%nat); (51501, 3%nat);
(51502, 3%nat); (51503, 3%nat); (51504, 3%nat); (51505, 3%nat); (51506, 3%nat); (51507, 3%nat); (51508, 3%nat); (51509, 3%nat); (51510, 2%nat); (51511, 3%nat);
(51512, 3%nat); (51513, 3%nat); (51516, 4%nat); (51517, 5%nat); (51518, 5%nat); (51519, 5%nat); (51520, 5%nat); (51521, 5%nat); (51522, 5%nat); (51526, 2%nat);
(51527, 3%nat); (51713, 4%nat); (51714, 4%nat); (51715, 4%nat); (51716, 4%nat); (51717, 4%nat); (51718, 4%nat); (51719, 4%nat); (51720, 2%nat); (51721, 2%nat);
(51722, 2%nat); (51726, 3%nat); (51727, 3%nat); (51728, 3%nat); (51731, 2%nat); (51732, 2%nat); (51735, 3%nat); (51736, 3%nat); (51738, 2%nat); (51739, 2%nat);
(51740, 2%nat); (51742, 2%nat); (51762, 3%nat); (51764, 2%nat); (51767, 3%nat); (51772, 2%nat); (51773, 2%nat); (51774, 2%nat); (51775, 2%nat); (51776, 2%nat);
(51777, 2%nat); (51778, 2%nat); (51780, 2%nat); (51782, 3%nat); (51783, 3%nat); (51784, 3%nat); (51969, 3%nat); (51970, 3%nat); (51973, 2%nat); (51975, 2%nat);
(51976, 2%nat); (51977, 3%nat); (51978, 2%nat); (51979, 2%nat); (52225, 3%nat); (52226, 3%nat); (52227, 4%nat); (52228, 4%nat); (52229, 4%nat); (52230, 3%nat);
(52231, 4%nat); (52238, 2%nat); (52239, 2%nat); (52240, 3%nat); (52241, 2%nat); (52242, 3%nat); (52243, 4%nat); (52244, 4%nat); (52245, 4%nat); (52246, 4%nat);
(52247, 4%nat); (52248, 5%nat); (52249, 5%nat); (52250, 2%nat); (52251, 4%nat); (52252, 2%nat); (52269, 2%nat); (52274, 2%nat); (52275, 2%nat); (52276, 2%nat);
(52277, 2%nat); (52282, 2%nat); (52283, 2%nat); (52285, 3%nat); (52294, 2%nat); (52512, 2%nat); (52522, 2%nat); (52993, 2%nat); (52994, 2%nat); (52995, 2%nat);
(52996, 2%nat); (52999, 2%nat); (53000, 3%nat); (53001, 2%nat); (53249, 2%nat); (53268, 2%nat); (53269, 2%nat); (53270, 2%nat); (53274, 3%nat); (53275, 3%nat);
(53278, 3%nat); (53279, 4%nat); (53280, 4%nat); (53281, 4%nat); (53282, 5%nat); (53283, 5%nat); (53284, 5%nat); (53285, 5%nat); (53286, 5%nat); (53287, 5%nat);
(53288, 4%nat); (53298, 2%nat); (53300, 2%nat); (53308, 2%nat); (53309, 2%nat); (53319, 6%nat); (53320, 6%nat); (53321, 6%nat); (53322, 4%nat); (53323, 5%nat);
(53324, 5%nat); (53325, 5%nat); (53326, 5%nat); (53327, 5%nat); (53328, 5%nat); (53329, 5%nat); (53761, 3%nat); (53763, 3%nat); (53764, 3%nat); (54532, 3%nat);
(59393, 2%nat); (59399, 2%nat); (59400, 2%nat); (59401, 2%nat); (59404, 2%nat); (59407, 2%nat); (59408, 3%nat); (59409, 2%nat)].

Definition depths_D0000000000000033000 : list (Z * nat) := [
(49156, 2%nat); (49162, 2%nat); (49422, 2%nat); (49433, 2%nat); (49434, 2%nat); (49435, 3%nat); (49436, 2%nat); (49437, 2%nat); (49438, 2%nat); (49439, 2%nat);
(49440, 2%nat); (49441, 2%nat); (49442, 2%nat); (49443, 2%nat); (49444, 2%nat); (49445, 2%nat); (49446, 2%nat); (49447, 2%nat); (49448, 2%nat); (49449, 2%nat);
(49450, 3%nat); (49451, 2%nat); (49452, 2%nat); (49453, 2%nat); (49455, 3%nat); (49459, 2%nat); (49463, 2%nat); (49464, 2%nat); (49466, 3%nat); (49467, 2%nat);
(49470, 2%nat); (49474, 2%nat); (49480, 2%nat); (49483, 2%nat); (49498, 2%nat); (49500, 2%nat); (49501, 3%nat); (49518, 2%nat); (49519, 2%nat); (49521, 2%nat);
(49522, 2%nat); (49528, 4%nat); (49529, 3%nat); (49530, 2%nat); (49531, 2%nat); (49534, 2%nat); (49538, 2%nat); (49539, 2%nat); (49675, 2%nat); (49676, 2%nat);
(49677, 2%nat); (49688, 2%nat); (49695, 2%nat); (49699, 2%nat); (49707, 2%nat); (49718, 2%nat); (49721, 3%nat); (49724, 2%nat); (49726, 3%nat); (49727, 2%nat);
(49731, 2%nat); (49748, 3%nat); (49749, 2%nat); (49757, 2%nat); (49942, 2%nat); (49943, 2%nat); (49944, 2%nat); (49960, 3%nat); (50434, 2%nat); (50435, 2%nat);
(50436, 3%nat); (50439, 3%nat); (50440, 2%nat); (50441, 3%nat); (50442, 3%nat); (50443, 4%nat); (50450, 3%nat); (50694, 2%nat); (50695, 2%nat); (50699, 2%nat);
(50700, 2%nat); (50701, 3%nat); (50702, 3%nat); (50704, 2%nat); (50707, 2%nat); (50708, 2%nat); (50709, 2%nat); (50710, 2%nat); (50711, 2%nat); (50712, 3%nat);
(50713, 3%nat); (50715, 2%nat); (50716, 3%nat); (50718, 3%nat); (50719, 3%nat); (50945, 3%nat); (50946, 3%nat); (50947, 4%nat); (50948, 4%nat); (50949, 4%nat);
(50950, 4%nat); (50951, 3%nat); (50952, 3%nat); (50953, 3%nat); (50955, 2%nat); (50959, 2%nat); (50962, 2%nat); (50964, 3%nat); (50965, 3%nat); (50966, 2%nat);
(50985, 2%nat); (50986, 2%nat); (50987, 2%nat); (50988, 2%nat); (50989, 2%nat); (50992, 2%nat); (50995, 3%nat); (50996, 2%nat); (50997, 2%nat); (50999, 3%nat);
(51000, 4%nat); (51005, 3%nat); (51006, 3%nat); (51015, 3%nat); (51017, 4%nat); (51018, 2%nat); (51020, 3%nat); (51022, 4%nat); (51023, 3%nat); (51024, 3%nat);
(51025, 3%nat); (51026, 3%nat); (51027, 3%nat); (51028, 3%nat); (51030, 3%nat); (51031, 2%nat); (51033, 3%nat); (51034, 3%nat); (51035, 3%nat); (51036, 2%nat);
(51040, 4%nat); (51045, 2%nat); (51046, 2%nat); (51047, 3%nat); (51126, 3%nat); (51201, 3%nat); (51202, 3%nat); (51203, 3%nat); (51204, 3%nat); (51205, 4%nat);
(51207, 3%nat); (51209, 4%nat); (51210, 2%nat); (51211, 2%nat); (51212, 2%nat); (51213, 3%nat); (51214, 4%nat); (51215, 2%nat); (51216, 2%nat); (51217, 3%nat);
(51218, 4%nat); (51221, 2%nat); (51222, 2%nat); (51223, 3%nat); (51457, 3%nat); (51458, 3%nat); (51459, 3%nat); (51460, 3%nat); (51461, 3%nat); (51462, 3%nat);
(51463, 3%nat); (51464, 3%nat); (51467, 3%nat); (51468, 3%nat); (51469, 3%nat); (51470, 3%nat); (51471, 3%nat); (51472, 3%nat); (51473, 3%nat); (51474, 3%nat);
(51475, 3%nat); (51476, 3%nat); (51477, 3%nat); (51478, 3%nat); (51479, 3%nat); (51496, 3%nat); (51497, 3%nat); (51498, 3%nat); (51499, 3%nat); (51500, 3%nat);
(51501, 3%nat); (51502, 3%nat); (51503, 3%nat); (51504, 3%nat); (51505, 3%nat); (51506, 3%nat); (51507, 3%nat); (51508, 3%nat); (51509, 3%nat); (51510, 2%nat);
(51511, 3%nat); (51512, 3%nat); (51513, 3%nat); (51516, 4%nat); (51517, 5%nat); (51518, 5%nat); (51519, 5%nat); (51520, 5%nat); (51521, 5%nat); (51522, 5%nat);
(51526, 2%nat); (51527, 3%nat); (51713, 4%nat); (51714, 4%nat); (51715, 4%nat); (51716, 4%nat); (51717, 4%nat); (51718, 4%nat); (51719, 4%nat); (51720, 2%nat);
(51721, 2%nat); (51722, 2%nat); (51726, 3%nat); (51727, 3%nat); (51728, 3%nat); (51731, 2%nat); (51732, 2%nat); (51735, 3%nat); (51736, 3%nat); (51738, 2%nat);
(51739, 2%nat); (51740, 2%nat); (51742, 2%nat); (51762, 3%nat); (51764, 2%nat); (51767, 3%nat); (51772, 2%nat); (51773, 2%nat); (51774, 2%nat); (51775, 2%nat);
(51776, 2%nat); (51777, 2%nat); (51778, 2%nat); (51780, 2%nat); (51782, 3%nat); (51783, 3%nat); (51784, 3%nat); (51969, 3%nat); (51970, 3%nat); (51973, 2%nat);
(51975, 2%nat); (51976, 2%nat); (51977, 3%nat); (51978, 2%nat); (51979, 2%nat); (51980, 3%nat); (52225, 3%nat); (52226, 3%nat); (52227, 4%nat); (52228, 4%nat);
(52229, 4%nat); (52230, 3%nat); (52231, 4%nat); (52238, 2%nat); (52239, 2%nat); (52240, 3%nat); (52241, 2%nat); (52242, 3%nat); (52243, 4%nat); (52244, 4%nat);
(52245, 4%nat); (52246, 4%nat); (52247, 4%nat); (52248, 5%nat); (52249, 5%nat); (52250, 2%nat); (52251, 4%nat); (52252, 2%nat); (52269, 2%nat); (52274, 2%nat);
(52275, 2%nat); (52276, 2%nat); (52277, 2%nat); (52282, 2%nat); (52283, 2%nat); (52285, 3%nat); (52294, 2%nat); (52512, 2%nat); (52522, 2%nat); (52993, 2%nat);
(52994, 2%nat); (52995, 2%nat); (52996, 2%nat); (52999, 2%nat); (53000, 3%nat); (53001, 2%nat); (53249, 2%nat); (53268, 2%nat); (53269, 2%nat); (53270, 2%nat);
(53274, 3%nat); (53275, 3%nat); (53278, 3%nat); (53279, 4%nat); (53280, 4%nat); (53281, 4%nat); (53282, 5%nat); (53283, 5%nat); (53284, 5%nat); (53285, 5%nat);
(53286, 5%nat); (53287, 5%nat); (53288, 4%nat); (53298, 2%nat); (53300, 2%nat); (53308, 2%nat); (53309, 2%nat); (53319, 6%nat); (53320, 6%nat); (53321, 6%nat);
(53322, 4%nat); (53323, 5%nat); (53324, 5%nat); (53325, 5%nat); (53326, 5%nat); (53327, 5%nat); (53328, 5%nat); (53329, 5%nat); (53761, 3%nat); (53763, 3%nat);
(53764, 3%nat); (54532, 3%nat); (59393, 2%nat); (59399, 2%nat); (59400, 2%nat); (59401, 2%nat); (59404, 2%nat); (59407, 2%nat); (59408, 3%nat); (59409, 2%nat)].

Definition depths_D0000000000085014001 : list (Z * nat) := [
(49156, 2%nat); (49162, 2%nat); (49422, 2%nat); (49433, 2%nat); (49434, 2%nat); (49435, 3%nat); (49436, 2%nat); (49439, 2%nat); (49440, 2%nat); (49441, 2%nat);
(49442, 2%nat); (49443, 2%nat); (49444, 2%nat); (49445, 2%nat); (49446, 2%nat); (49447, 2%nat); (49448, 2%nat); (49449, 2%nat); (49450, 3%nat); (49451, 2%nat);
(49452, 2%nat); (49453, 2%nat); (49455, 3%nat); (49459, 2%nat); (49463, 2%nat); (49470, 2%nat); (49474, 2%nat); (49480, 2%nat); (49483, 2%nat); (49498, 2%nat);
(49500, 2%nat); (49501, 3%nat); (49518, 2%nat); (49519, 2%nat); (49521, 2%nat); (49522, 2%nat); (49528, 4%nat); (49529, 3%nat); (49530, 2%nat); (49531, 2%nat);
(49602, 2%nat); (49603, 2%nat); (49604, 2%nat); (49606, 2%nat); (49645, 2%nat); (49658, 2%nat); (49675, 2%nat); (49676, 2%nat); (49677, 2%nat); (49688, 2%nat);
(49695, 2%nat); (49699, 2%nat); (49707, 2%nat); (49718, 2%nat); (49721, 3%nat); (49724, 2%nat); (49726, 3%nat); (49727, 2%nat); (49748, 3%nat); (49749, 2%nat);
(49870, 2%nat); (49942, 2%nat); (49943, 2%nat); (49944, 2%nat); (49960, 3%nat); (50440, 2%nat); (50694, 2%nat); (50695, 2%nat); (50707, 2%nat); (50708, 3%nat);
(50709, 2%nat); (50710, 2%nat); (50711, 2%nat); (50712, 2%nat); (50713, 3%nat); (50945, 3%nat); (50946, 3%nat); (50947, 4%nat); (50948, 4%nat); (50949, 4%nat);
(50950, 4%nat); (50951, 3%nat); (50952, 3%nat); (50953, 3%nat); (50955, 2%nat); (50959, 2%nat); (50962, 2%nat); (50964, 3%nat); (50965, 3%nat); (50966, 2%nat);
(50985, 2%nat); (50986, 2%nat); (50987, 2%nat); (50989, 2%nat); (50992, 2%nat); (50996, 2%nat); (50997, 2%nat); (50999, 3%nat); (51000, 4%nat); (51003, 3%nat);
(51005, 3%nat); (51006, 3%nat); (51015, 3%nat); (51017, 4%nat); (51023, 3%nat); (51024, 3%nat); (51025, 3%nat); (51026, 3%nat); (51027, 3%nat); (51028, 3%nat);
(51030, 3%nat); (51034, 3%nat); (51035, 3%nat); (51036, 3%nat); (51040, 4%nat); (51201, 3%nat); (51202, 3%nat); (51203, 3%nat); (51204, 3%nat); (51205, 4%nat);
(51207, 3%nat); (51208, 2%nat); (51209, 4%nat); (51210, 2%nat); (51211, 2%nat); (51212, 2%nat); (51213, 3%nat); (51215, 2%nat); (51216, 2%nat); (51457, 3%nat);
(51458, 3%nat); (51459, 3%nat); (51460, 3%nat); (51461, 3%nat); (51462, 3%nat); (51463, 3%nat); (51464, 3%nat); (51467, 3%nat); (51468, 3%nat); (51469, 3%nat);
(51470, 3%nat); (51471, 3%nat); (51472, 3%nat); (51473, 3%nat); (51474, 3%nat); (51475, 3%nat); (51476, 3%nat); (51496, 3%nat); (51498, 3%nat); (51506, 3%nat);
(51507, 3%nat); (51508, 3%nat); (51509, 3%nat); (51510, 2%nat); (51516, 4%nat); (51517, 5%nat); (51518, 5%nat); (51519, 5%nat); (51520, 5%nat); (51521, 5%nat);
(51522, 5%nat); (51650, 3%nat); (51651, 3%nat); (51652, 3%nat); (51654, 3%nat); (51713, 4%nat); (51714, 4%nat); (51715, 4%nat); (51716, 4%nat); (51717, 4%nat);
(51718, 4%nat); (51719, 4%nat); (51720, 2%nat); (51721, 2%nat); (51722, 2%nat); (51726, 3%nat); (51727, 3%nat); (51728, 3%nat); (51731, 2%nat); (51732, 2%nat);
(51735, 3%nat); (51736, 3%nat); (51738, 2%nat); (51739, 2%nat); (51742, 2%nat); (51762, 3%nat); (51764, 2%nat); (51767, 3%nat); (51772, 2%nat); (51905, 3%nat);
(51906, 3%nat); (51907, 3%nat); (51908, 3%nat); (51938, 2%nat); (51969, 3%nat); (51970, 3%nat); (51973, 2%nat); (51975, 2%nat); (51976, 2%nat); (51977, 3%nat);
(52161, 2%nat); (52225, 3%nat); (52226, 3%nat); (52227, 4%nat); (52228, 4%nat); (52229, 4%nat); (52230, 3%nat); (52231, 4%nat); (52238, 2%nat); (52239, 2%nat);
(52240, 3%nat); (52241, 2%nat); (52242, 3%nat); (52243, 4%nat); (52244, 4%nat); (52245, 4%nat); (52246, 4%nat); (52247, 4%nat); (52248, 5%nat); (52249, 5%nat);
(52250, 2%nat); (52251, 4%nat); (52252, 2%nat); (52269, 2%nat); (52274, 2%nat); (52275, 2%nat); (52276, 2%nat); (52277, 2%nat); (52282, 2%nat); (52283, 2%nat);
(52285, 3%nat); (52294, 2%nat); (52424, 3%nat); (52425, 3%nat); (52426, 3%nat); (52427, 3%nat); (52428, 4%nat); (52431, 4%nat); (52432, 2%nat); (52433, 3%nat);
(52434, 4%nat); (52435, 3%nat); (52436, 2%nat); (52512, 2%nat); (52522, 2%nat); (52993, 2%nat); (52994, 2%nat); (52995, 2%nat); (53249, 2%nat); (53268, 2%nat);
(53269, 2%nat); (53270, 2%nat); (53274, 3%nat); (53278, 3%nat); (53279, 4%nat); (53280, 4%nat); (53281, 4%nat); (53282, 5%nat); (53283, 5%nat); (53284, 5%nat);
(53285, 5%nat); (53286, 5%nat); (53287, 5%nat); (53288, 4%nat); (53298, 2%nat); (53300, 2%nat); (53761, 3%nat); (53763, 3%nat); (53764, 3%nat); (54532, 3%nat);
(59393, 2%nat); (59397, 2%nat); (59399, 2%nat); (59400, 2%nat); (59401, 2%nat); (59402, 2%nat)].

Definition depths_D0000000000098013001 : list (Z * nat) := [
(49156, 2%nat); (49162, 2%nat); (49422, 2%nat); (49433, 2%nat); (49434, 2%nat); (49435, 3%nat); (49436, 2%nat); (49439, 2%nat); (49440, 2%nat); (49441, 2%nat);
(49442, 2%nat); (49443, 2%nat); (49444, 2%nat); (49445, 2%nat); (49446, 2%nat); (49447, 2%nat); (49448, 2%nat); (49449, 2%nat); (49450, 3%nat); (49451, 2%nat);
(49452, 2%nat); (49453, 2%nat); (49455, 3%nat); (49459, 2%nat); (49463, 2%nat); (49470, 2%nat); (49474, 2%nat); (49480, 2%nat); (49483, 2%nat); (49498, 2%nat);
(49500, 2%nat); (49501, 3%nat); (49518, 2%nat); (49519, 2%nat); (49521, 2%nat); (49522, 2%nat); (49528, 4%nat); (49529, 3%nat); (49530, 2%nat); (49531, 2%nat);
(49602, 2%nat); (49603, 2%nat); (49604, 2%nat); (49606, 2%nat); (49645, 2%nat); (49658, 2%nat); (49675, 2%nat); (49676, 2%nat); (49677, 2%nat); (49688, 2%nat);
(49695, 2%nat); (49699, 2%nat); (49707, 2%nat); (49718, 2%nat); (49721, 3%nat); (49724, 2%nat); (49726, 3%nat); (49727, 2%nat); (49870, 2%nat); (49942, 2%nat);
(49943, 2%nat); (49944, 2%nat); (49960, 3%nat); (50435, 2%nat); (50439, 2%nat); (50440, 2%nat); (50441, 3%nat); (50443, 2%nat); (50450, 3%nat); (50694, 2%nat);
(50695, 2%nat); (50707, 2%nat); (50708, 3%nat); (50709, 2%nat); (50710, 2%nat); (50711, 2%nat); (50712, 2%nat); (50713, 3%nat); (50945, 3%nat); (50946, 3%nat);
(50947, 4%nat); (50948, 4%nat); (50949, 4%nat); (50950, 4%nat); (50951, 3%nat); (50952, 3%nat); (50953, 3%nat); (50955, 2%nat); (50959, 2%nat); (50962, 2%nat);
(50964, 3%nat); (50965, 3%nat); (50966, 2%nat); (50985, 2%nat); (50986, 2%nat); (50987, 2%nat); (50989, 2%nat); (50992, 2%nat); (50996, 2%nat); (50997, 2%nat);
(50999, 3%nat); (51000, 4%nat); (51003, 3%nat); (51005, 3%nat); (51006, 3%nat); (51015, 3%nat); (51017, 4%nat); (51024, 3%nat); (51025, 3%nat); (51026, 3%nat);
(51027, 3%nat); (51028, 3%nat); (51030, 3%nat); (51034, 3%nat); (51035, 3%nat); (51201, 3%nat); (51202, 3%nat); (51203, 3%nat); (51204, 3%nat); (51205, 4%nat);
(51207, 3%nat); (51208, 2%nat); (51209, 4%nat); (51210, 2%nat); (51211, 2%nat); (51212, 2%nat); (51213, 3%nat); (51215, 2%nat); (51216, 2%nat); (51457, 3%nat);
(51458, 3%nat); (51459, 3%nat); (51460, 3%nat); (51461, 3%nat); (51462, 3%nat); (51463, 3%nat); (51464, 3%nat); (51467, 3%nat); (51468, 3%nat); (51469, 3%nat);
(51470, 3%nat); (51471, 3%nat); (51472, 3%nat); (51473, 3%nat); (51474, 3%nat); (51475, 3%nat); (51476, 3%nat); (51496, 3%nat); (51498, 3%nat); (51506, 3%nat);
(51507, 3%nat); (51508, 3%nat); (51509, 3%nat); (51510, 2%nat); (51516, 4%nat); (51517, 5%nat); (51518, 5%nat); (51519, 5%nat); (51520, 5%nat); (51521, 5%nat);
(51522, 5%nat); (51650, 3%nat); (51651, 3%nat); (51652, 3%nat); (51654, 3%nat); (51713, 4%nat); (51714, 4%nat); (51715, 4%nat); (51716, 4%nat); (51717, 4%nat);
(51718, 4%nat); (51719, 4%nat); (51720, 2%nat); (51721, 2%nat); (51722, 2%nat); (51726, 3%nat); (51727, 3%nat); (51728, 3%nat); (51731, 2%nat); (51732, 2%nat);
(51735, 3%nat); (51736, 3%nat); (51738, 2%nat); (51739, 2%nat); (51740, 2%nat); (51742, 2%nat); (51762, 3%nat); (51764, 2%nat); (51767, 3%nat); (51905, 3%nat);
(51906, 3%nat); (51907, 3%nat); (51908, 3%nat); (51938, 2%nat); (51969, 3%nat); (51970, 3%nat); (51973, 2%nat); (51975, 2%nat); (51976, 2%nat); (51977, 3%nat);
(52161, 2%nat); (52225, 3%nat); (52226, 3%nat); (52227, 4%nat); (52228, 4%nat); (52229, 4%nat); (52230, 3%nat); (52231, 4%nat); (52238, 2%nat); (52239, 2%nat);
(52240, 3%nat); (52241, 2%nat); (52242, 3%nat); (52243, 4%nat); (52244, 4%nat); (52245, 4%nat); (52246, 4%nat); (52247, 4%nat); (52248, 5%nat); (52249, 5%nat);
(52250, 2%nat); (52251, 4%nat); (52252, 2%nat); (52269, 2%nat); (52274, 2%nat); (52275, 2%nat); (52276, 2%nat); (52277, 2%nat); (52282, 2%nat); (52283, 2%nat);
(52285, 3%nat); (52294, 2%nat); (52424, 3%nat); (52425, 3%nat); (52426, 3%nat); (52427, 3%nat); (52428, 4%nat); (52431, 4%nat); (52432, 2%nat); (52433, 3%nat);
(52434, 4%nat); (52435, 3%nat); (52436, 2%nat); (52512, 2%nat); (52522, 2%nat); (52993, 2%nat); (52994, 2%nat); (52995, 2%nat); (53249, 2%nat); (53268, 2%nat);
(53269, 2%nat); (53270, 2%nat); (53274, 3%nat); (53278, 3%nat); (53279, 4%nat); (53280, 4%nat); (53281, 4%nat); (53282, 5%nat); (53283, 5%nat); (53284, 5%nat);
(53285, 5%nat); (53286, 5%nat); (53287, 5%nat); (53288, 4%nat); (53298, 2%nat); (53300, 2%nat); (53761, 3%nat); (53763, 3%nat); (53764, 3%nat); (54532, 3%nat);
(59393, 2%nat); (59397, 2%nat); (59399, 2%nat); (59400, 2%nat)].

Definition depths_D0000000000098013102 : list (Z * nat) := [
(49156, 2%nat); (49162, 2%nat); (49433, 2%nat); (49434, 2%nat); (49439, 2%nat); (49440, 2%nat); (49441, 2%nat); (49442, 2%nat); (49443, 2%nat); (49444, 2%nat);
(49445, 2%nat); (49446, 2%nat); (49447, 2%nat); (49448, 2%nat); (49449, 2%nat); (49450, 3%nat); (49451, 2%nat); (49452, 2%nat); (49453, 2%nat); (49455, 3%nat);
(49459, 2%nat); (49463, 2%nat); (49470, 2%nat); (49474, 2%nat); (49480, 2%nat); (49498, 2%nat); (49519, 2%nat); (49521, 2%nat); (49522, 2%nat); (49602, 2%nat);
(49603, 2%nat); (49604, 2%nat); (49645, 2%nat); (49658, 2%nat); (49675, 2%nat); (49676, 2%nat); (49677, 2%nat); (49688, 2%nat); (49695, 2%nat); (49699, 2%nat);
(49707, 2%nat); (49870, 2%nat); (49942, 2%nat); (49943, 2%nat); (49944, 2%nat); (50435, 2%nat); (50439, 2%nat); (50440, 2%nat); (50441, 3%nat); (50443, 2%nat);
(50450, 3%nat); (50694, 2%nat); (50695, 2%nat); (50708, 3%nat); (50709, 2%nat); (50710, 2%nat); (50711, 2%nat); (50712, 2%nat); (50945, 3%nat); (50946, 3%nat);
(50947, 4%nat); (50948, 4%nat); (50949, 4%nat); (50950, 4%nat); (50951, 3%nat); (50952, 3%nat); (50953, 3%nat); (50955, 2%nat); (50959, 2%nat); (50962, 2%nat);
(50964, 3%nat); (50965, 3%nat); (50966, 2%nat); (50985, 2%nat); (50986, 2%nat); (50987, 2%nat); (51201, 3%nat); (51202, 3%nat); (51203, 3%nat); (51204, 3%nat);
(51205, 4%nat); (51207, 3%nat); (51457, 3%nat); (51458, 3%nat); (51459, 3%nat); (51460, 3%nat); (51461, 3%nat); (51462, 3%nat); (51463, 3%nat); (51464, 3%nat);
(51467, 3%nat); (51468, 3%nat); (51469, 3%nat); (51470, 3%nat); (51471, 3%nat); (51472, 3%nat); (51473, 3%nat); (51474, 3%nat); (51475, 3%nat); (51476, 3%nat);
(51496, 2%nat); (51498, 3%nat); (51508, 3%nat); (51650, 3%nat); (51651, 3%nat); (51652, 3%nat); (51713, 4%nat); (51714, 4%nat); (51715, 4%nat); (51716, 4%nat);
(51717, 4%nat); (51718, 4%nat); (51719, 4%nat); (51720, 2%nat); (51721, 2%nat); (51722, 2%nat); (51726, 3%nat); (51727, 3%nat); (51728, 3%nat); (51732, 2%nat);
(51735, 3%nat); (51736, 3%nat); (51738, 2%nat); (51742, 2%nat); (51762, 3%nat); (51764, 2%nat); (51767, 3%nat); (51905, 3%nat); (51906, 3%nat); (51907, 3%nat);
(51908, 3%nat); (51969, 3%nat); (51970, 3%nat); (51973, 2%nat); (52161, 2%nat); (52225, 3%nat); (52226, 3%nat); (52227, 4%nat); (52228, 4%nat); (52229, 4%nat);
(52230, 3%nat); (52231, 4%nat); (52238, 2%nat); (52239, 2%nat); (52240, 3%nat); (52241, 2%nat); (52242, 3%nat); (52243, 4%nat); (52244, 4%nat); (52245, 4%nat);
(52246, 4%nat); (52247, 4%nat); (52248, 5%nat); (52249, 5%nat); (52250, 2%nat); (52251, 4%nat); (52252, 2%nat); (52269, 2%nat); (52274, 2%nat); (52275, 2%nat);
(52276, 2%nat); (52277, 2%nat); (52424, 3%nat); (52425, 3%nat); (52426, 3%nat); (52427, 3%nat); (52428, 4%nat); (52431, 4%nat); (52432, 2%nat); (52433, 3%nat);
(52434, 4%nat); (52435, 3%nat); (52436, 2%nat); (52512, 2%nat); (52522, 2%nat); (52993, 2%nat); (52994, 2%nat); (53249, 2%nat); (53270, 2%nat); (53761, 3%nat);
(53763, 3%nat); (53764, 3%nat); (54532, 3%nat)].

Definition depths_D0000000000098016001 : list (Z * nat) := [
(49156, 2%nat); (49162, 2%nat); (49422, 2%nat); (49433, 2%nat); (49434, 2%nat); (49435, 3%nat); (49436, 2%nat); (49439, 2%nat); (49440, 2%nat); (49441, 2%nat);
(49442, 2%nat); (49443, 2%nat); (49444, 2%nat); (49445, 2%nat); (49446, 2%nat); (49447, 2%nat); (49448, 2%nat); (49449, 2%nat); (49450, 3%nat); (49451, 2%nat);
(49452, 2%nat); (49453, 2%nat); (49455, 3%nat); (49459, 2%nat); (49463, 2%nat); (49466, 3%nat); (49467, 2%nat); (49470, 2%nat); (49474, 2%nat); (49480, 2%nat);
(49498, 2%nat); (49500, 2%nat); (49501, 3%nat); (49518, 2%nat); (49519, 2%nat); (49521, 2%nat); (49522, 2%nat); (49528, 4%nat); (49529, 3%nat); (49530, 2%nat);
(49531, 2%nat); (49602, 2%nat); (49603, 2%nat); (49604, 2%nat); (49606, 2%nat); (49645, 2%nat); (49658, 2%nat); (49675, 2%nat); (49676, 2%nat); (49677, 2%nat);
(49688, 2%nat); (49695, 2%nat); (49699, 2%nat); (49707, 2%nat); (49718, 2%nat); (49721, 3%nat); (49724, 2%nat); (49726, 3%nat); (49727, 2%nat); (49748, 3%nat);
(49749, 2%nat); (49870, 2%nat); (49942, 2%nat); (49943, 2%nat); (49944, 2%nat); (49960, 3%nat); (50440, 2%nat); (50694, 2%nat); (50695, 2%nat); (50699, 2%nat);
(50700, 2%nat); (50701, 3%nat); (50702, 3%nat); (50704, 2%nat); (50707, 2%nat); (50711, 2%nat); (50715, 2%nat); (50716, 3%nat); (50718, 3%nat); (50719, 3%nat);
(50945, 3%nat); (50946, 3%nat); (50947, 4%nat); (50948, 4%nat); (50949, 4%nat); (50950, 4%nat); (50951, 3%nat); (50952, 3%nat); (50953, 3%nat); (50955, 2%nat);
(50959, 2%nat); (50962, 2%nat); (50964, 3%nat); (50965, 3%nat); (50966, 2%nat); (50989, 2%nat); (50992, 2%nat); (50995, 3%nat); (50996, 2%nat); (50997, 2%nat);
(50999, 3%nat); (51000, 4%nat); (51015, 3%nat); (51017, 4%nat); (51023, 3%nat); (51024, 3%nat); (51025, 3%nat); (51026, 3%nat); (51027, 3%nat); (51028, 3%nat);
(51030, 3%nat); (51034, 3%nat); (51035, 3%nat); (51036, 3%nat); (51040, 4%nat); (51201, 3%nat); (51202, 3%nat); (51203, 3%nat); (51204, 3%nat); (51205, 4%nat);
(51207, 3%nat); (51208, 4%nat); (51209, 4%nat); (51210, 2%nat); (51211, 2%nat); (51212, 2%nat); (51213, 3%nat); (51214, 4%nat); (51457, 3%nat); (51458, 3%nat);
(51459, 3%nat); (51460, 3%nat); (51461, 3%nat); (51462, 3%nat); (51463, 3%nat); (51464, 3%nat); (51467, 3%nat); (51468, 3%nat); (51469, 3%nat); (51470, 3%nat);
(51471, 3%nat); (51472, 3%nat); (51473, 3%nat); (51474, 3%nat); (51475, 3%nat); (51476, 3%nat); (51506, 3%nat); (51507, 3%nat); (51508, 3%nat); (51509, 3%nat);
(51510, 2%nat); (51516, 4%nat); (51517, 5%nat); (51518, 5%nat); (51519, 5%nat); (51520, 5%nat); (51521, 5%nat); (51522, 5%nat); (51526, 2%nat); (51650, 3%nat);
(51651, 3%nat); (51652, 3%nat); (51654, 3%nat); (51713, 4%nat); (51714, 4%nat); (51715, 4%nat); (51716, 4%nat); (51717, 4%nat); (51718, 4%nat); (51719, 4%nat);
(51720, 2%nat); (51721, 2%nat); (51722, 2%nat); (51726, 3%nat); (51727, 3%nat); (51728, 3%nat); (51731, 2%nat); (51732, 2%nat); (51735, 3%nat); (51736, 3%nat);
(51738, 2%nat); (51739, 2%nat); (51740, 2%nat); (51742, 2%nat); (51762, 3%nat); (51764, 2%nat); (51767, 3%nat); (51772, 2%nat); (51773, 2%nat); (51774, 2%nat);
(51905, 3%nat); (51906, 3%nat); (51907, 3%nat); (51908, 3%nat); (51938, 2%nat); (51969, 3%nat); (51970, 3%nat); (51973, 2%nat); (51975, 2%nat); (51976, 2%nat);
(51977, 3%nat); (51978, 2%nat); (52161, 2%nat); (52225, 3%nat); (52226, 3%nat); (52227, 4%nat); (52228, 4%nat); (52229, 4%nat); (52230, 3%nat); (52231, 4%nat);
(52238, 2%nat); (52239, 2%nat); (52240, 3%nat); (52241, 2%nat); (52242, 3%nat); (52243, 4%nat); (52244, 4%nat); (52245, 4%nat); (52246, 4%nat); (52247, 4%nat);
(52248, 5%nat); (52249, 5%nat); (52250, 2%nat); (52251, 4%nat); (52252, 2%nat); (52269, 2%nat); (52274, 2%nat); (52275, 2%nat); (52276, 2%nat); (52277, 2%nat);
(52282, 2%nat); (52283, 2%nat); (52285, 3%nat); (52294, 2%nat); (52424, 3%nat); (52425, 3%nat); (52426, 3%nat); (52427, 3%nat); (52428, 4%nat); (52432, 2%nat);
(52433, 3%nat); (52434, 4%nat); (52435, 3%nat); (52436, 2%nat); (52512, 2%nat); (52522, 2%nat); (52993, 2%nat); (52994, 2%nat); (52995, 2%nat); (52998, 2%nat);
(53249, 2%nat); (53270, 2%nat); (53278, 3%nat); (53279, 4%nat); (53280, 4%nat); (53281, 4%nat); (53282, 5%nat); (53283, 5%nat); (53284, 5%nat); (53285, 5%nat);
(53286, 5%nat); (53287, 5%nat); (53288, 4%nat); (53298, 2%nat); (53300, 2%nat); (53319, 6%nat); (53320, 6%nat); (53321, 6%nat); (53322, 4%nat); (53323, 5%nat);
(53324, 5%nat); (53325, 5%nat); (53326, 5%nat); (53327, 5%nat); (53328, 5%nat); (53329, 5%nat); (53761, 3%nat); (53763, 3%nat); (53764, 3%nat); (54532, 3%nat);
(59393, 2%nat); (59399, 2%nat); (59400, 2%nat); (59401, 2%nat)].

Definition depths_D0000000000098033001 : list (Z * nat) := [
(49156, 2%nat); (49162, 2%nat); (49422, 2%nat); (49433, 2%nat); (49434, 2%nat); (49435, 3%nat); (49436, 2%nat); (49437, 2%nat); (49438, 2%nat); (49439, 2%nat);
(49440, 2%nat); (49441, 2%nat); (49442, 2%nat); (49443, 2%nat); (49444, 2%nat); (49445, 2%nat); (49446, 2%nat); (49447, 2%nat); (49448, 2%nat); (49449, 2%nat);
(49450, 3%nat); (49451, 2%nat); (49452, 2%nat); (49453, 2%nat); (49455, 3%nat); (49459, 2%nat); (49463, 2%nat); (49464, 2%nat); (49466, 3%nat); (49467, 2%nat);
(49470, 2%nat); (49474, 2%nat); (49480, 2%nat); (49483, 2%nat); (49498, 2%nat); (49500, 2%nat); (49501, 3%nat); (49518, 2%nat); (49519, 2%nat); (49521, 2%nat);
(49522, 2%nat); (49528, 4%nat); (49529, 3%nat); (49530, 2%nat); (49531, 2%nat); (49534, 2%nat); (49538, 2%nat); (49539, 2%nat); (49602, 2%nat); (49603, 2%nat);
(49604, 2%nat); (49606, 2%nat); (49645, 2%nat); (49658, 2%nat); (49675, 2%nat); (49676, 2%nat); (49677, 2%nat); (49688, 2%nat); (49695, 2%nat); (49699, 2%nat);
(49707, 2%nat); (49718, 2%nat); (49721, 3%nat); (49724, 2%nat); (49726, 3%nat); (49727, 2%nat); (49731, 2%nat); (49748, 3%nat); (49749, 2%nat); (49757, 2%nat);
(49870, 2%nat); (49942, 2%nat); (49943, 2%nat); (49944, 2%nat); (49960, 3%nat); (50434, 2%nat); (50435, 2%nat); (50436, 3%nat); (50439, 3%nat); (50440, 2%nat);
(50441, 3%nat); (50442, 3%nat); (50443, 4%nat); (50450, 3%nat); (50694, 2%nat); (50695, 2%nat); (50699, 2%nat); (50700, 2%nat); (50701, 3%nat); (50702, 3%nat);
(50704, 2%nat); (50707, 2%nat); (50708, 2%nat); (50709, 2%nat); (50710, 2%nat); (50711, 2%nat); (50712, 3%nat); (50713, 3%nat); (50715, 2%nat); (50716, 3%nat);
(50718, 3%nat); (50719, 3%nat); (50945, 3%nat); (50946, 3%nat); (50947, 4%nat); (50948, 4%nat); (50949, 4%nat); (50950, 4%nat); (50951, 3%nat); (50952, 3%nat);
(50953, 3%nat); (50955, 2%nat); (50959, 2%nat); (50962, 2%nat); (50964, 3%nat); (50965, 3%nat); (50966, 2%nat); (50985, 2%nat); (50986, 2%nat); (50987, 2%nat);
(50988, 2%nat); (50989, 2%nat); (50992, 2%nat); (50995, 3%nat); (50996, 2%nat); (50997, 2%nat); (50999, 3%nat); (51000, 4%nat); (51005, 3%nat); (51006, 3%nat);
(51015, 3%nat); (51017, 4%nat); (51018, 2%nat); (51020, 3%nat); (51022, 4%nat); (51023, 3%nat); (51024, 3%nat); (51025, 3%nat); (51026, 3%nat); (51027, 3%nat);
(51028, 3%nat); (51030, 3%nat); (51031, 2%nat); (51033, 3%nat); (51034, 3%nat); (51035, 3%nat); (51036, 2%nat); (51040, 4%nat); (51045, 2%nat); (51046, 2%nat);
(51047, 3%nat); (51126, 3%nat); (51201, 3%nat); (51202, 3%nat); (51203, 3%nat); (51204, 3%nat); (51205, 4%nat); (51207, 3%nat); (51209, 4%nat); (51210, 2%nat);
(51211, 2%nat); (51212, 2%nat); (51213, 3%nat); (51214, 4%nat); (51215, 2%nat); (51216, 2%nat); (51217, 3%nat); (51218, 4%nat); (51221, 2%nat); (51222, 2%nat);
(51223, 3%nat); (51457, 3%nat); (51458, 3%nat); (51459, 3%nat); (51460, 3%nat); (51461, 3%nat); (51462, 3%nat); (51463, 3%nat); (51464, 3%nat); (51467, 3%nat);
(51468, 3%nat); (51469, 3%nat); (51470, 3%nat); (51471, 3%nat); (51472, 3%nat); (51473, 3%nat); (51474, 3%nat); (51475, 3%nat); (51476, 3%nat); (51477, 3%nat);
(51478, 3%nat); (51479, 3%nat); (51496, 3%nat); (51497, 3%nat); (51498, 3%nat); (51499, 3%nat); (51500, 3%nat); (51501, 3%nat); (51502, 3%nat); (51503, 3%nat);
(51504, 3%nat); (51505, 3%nat); (51506, 3%nat); (51507, 3%nat); (51508, 3%nat); (51509, 3%nat); (51510, 2%nat); (51511, 3%nat); (51512, 3%nat); (51513, 3%nat);
(51516, 4%nat); (51517, 5%nat); (51518, 5%nat); (51519, 5%nat); (51520, 5%nat); (51521, 5%nat); (51522, 5%nat); (51526, 2%nat); (51527, 3%nat); (51650, 3%nat);
(51651, 3%nat); (51652, 3%nat); (51654, 3%nat); (51713, 4%nat); (51714, 4%nat); (51715, 4%nat); (51716, 4%nat); (51717, 4%nat); (51718, 4%nat); (51719, 4%nat);
(51720, 2%nat); (51721, 2%nat); (51722, 2%nat); (51726, 3%nat); (51727, 3%nat); (51728, 3%nat); (51731, 2%nat); (51732, 2%nat); (51735, 3%nat); (51736, 3%nat);
(51738, 2%nat); (51739, 2%nat); (51740, 2%nat); (51742, 2%nat); (51762, 3%nat); (51764, 2%nat); (51767, 3%nat); (51772, 2%nat); (51773, 2%nat); (51774, 2%nat);
(51775, 2%nat); (51776, 2%nat); (51777, 2%nat); (51778, 2%nat); (51780, 2%nat); (51782, 3%nat); (51783, 3%nat); (51784, 3%nat); (51905, 3%nat); (51906, 3%nat);
(51907, 3%nat); (51908, 3%nat); (51938, 2%nat); (51969, 3%nat); (51970, 3%nat); (51973, 2%nat); (51975, 2%nat); (51976, 2%nat); (51977, 3%nat); (51978, 2%nat);
(51979, 2%nat); (51980, 3%nat); (52161, 2%nat); (52225, 3%nat); (52226, 3%nat); (52227, 4%nat); (52228, 4%nat); (52229, 4%nat); (52230, 3%nat); (52231, 4%nat);
(52238, 2%nat); (52239, 2%nat); (52240, 3%nat); (52241, 2%nat); (52242, 3%nat); (52243, 4%nat); (52244, 4%nat); (52245, 4%nat); (52246, 4%nat); (52247, 4%nat);
(52248, 5%nat); (52249, 5%nat); (52250, 2%nat); (52251, 4%nat); (52252, 2%nat); (52269, 2%nat); (52274, 2%nat); (52275, 2%nat); (52276, 2%nat); (52277, 2%nat);
(52282, 2%nat); (52283, 2%nat); (52285, 3%nat); (52294, 2%nat); (52424, 3%nat); (52425, 3%nat); (52426, 3%nat); (52427, 3%nat); (52428, 4%nat); (52432, 2%nat);
(52433, 3%nat); (52434, 4%nat); (52435, 3%nat); (52436, 2%nat); (52512, 2%nat); (52522, 2%nat); (52993, 2%nat); (52994, 2%nat); (52995, 2%nat); (52996, 2%nat);
(52999, 2%nat); (53000, 3%nat); (53001, 2%nat); (53249, 2%nat); (53268, 2%nat); (53269, 2%nat); (53270, 2%nat); (53274, 3%nat); (53275, 3%nat); (53278, 3%nat);
(53279, 4%nat); (53280, 4%nat); (53281, 4%nat); (53282, 5%nat); (53283, 5%nat); (53284, 5%nat); (53285, 5%nat); (53286, 5%nat); (53287, 5%nat); (53288, 4%nat);
(53298, 2%nat); (53300, 2%nat); (53308, 2%nat); (53309, 2%nat); (53319, 6%nat); (53320, 6%nat); (53321, 6%nat); (53322, 4%nat); (53323, 5%nat); (53324, 5%nat);
(53325, 5%nat); (53326, 5%nat); (53327, 5%nat); (53328, 5%nat); (53329, 5%nat); (53761, 3%nat); (53763, 3%nat); (53764, 3%nat); (54532, 3%nat); (59393, 2%nat);
(59399, 2%nat); (59400, 2%nat); (59401, 2%nat); (59404, 2%nat); (59407, 2%nat); (59408, 3%nat); (59409, 2%nat)].

Definition depths_D0000000000098033002 : list (Z * nat) := [
(49156, 2%nat); (49162, 2%nat); (49422, 2%nat); (49433, 2%nat); (49434, 2%nat); (49435, 3%nat); (49436, 2%nat); (49437, 2%nat); (49438, 2%nat); (49439, 2%nat);
(49440, 2%nat); (49441, 2%nat); (49442, 2%nat); (49443, 2%nat); (49444, 2%nat); (49445, 2%nat); (49446, 2%nat); (49447, 2%nat); (49448, 2%nat); (49449, 2%nat);
(49450, 3%nat); (49451, 2%nat); (49452, 2%nat); (49453, 2%nat); (49455, 3%nat); (49459, 2%nat); (49463, 2%nat); (49464, 2%nat); (49466, 3%nat); (49467, 2%nat);
(49470, 2%nat); (49474, 2%nat); (49480, 2%nat); (49483, 2%nat); (49498, 2%nat); (49500, 2%nat); (49501, 3%nat); (49518, 2%nat); (49519, 2%nat); (49521, 2%nat);
(49522, 2%nat); (49528, 4%nat); (49529, 3%nat); (49530, 2%nat); (49531, 2%nat); (49534, 2%nat); (49538, 2%nat); (49539, 2%nat); (49675, 2%nat); (49676, 2%nat);
(49677, 2%nat); (49688, 2%nat); (49695, 2%nat); (49699, 2%nat); (49707, 2%nat); (49718, 2%nat); (49721, 3%nat); (49724, 2%nat); (49726, 3%nat); (49727, 2%nat);
(49731, 2%nat); (49748, 3%nat); (49749, 2%nat); (49757, 2%nat); (49942, 2%nat); (49943, 2%nat); (49944, 2%nat); (49960, 3%nat); (50434, 2%nat); (50435, 2%nat);
(50436, 3%nat); (50439, 3%nat); (50440, 2%nat); (50441, 3%nat); (50442, 3%nat); (50443, 4%nat); (50450, 3%nat); (50694, 2%nat); (50695, 2%nat); (50699, 2%nat);
(50700, 2%nat); (50701, 3%nat); (50702, 3%nat); (50704, 2%nat); (50707, 2%nat); (50708, 2%nat); (50709, 2%nat); (50710, 2%nat); (50711, 2%nat); (50712, 3%nat);
(50713, 3%nat); (50715, 2%nat); (50716, 3%nat); (50718, 3%nat); (50719, 3%nat); (50945, 3%nat); (50946, 3%nat); (50947, 4%nat); (50948, 4%nat); (50949, 4%nat);
(50950, 4%nat); (50951, 3%nat); (50952, 3%nat); (50953, 3%nat); (50955, 2%nat); (50959, 2%nat); (50962, 2%nat); (50964, 3%nat); (50965, 3%nat); (50966, 2%nat);
(50985, 2%nat); (50986, 2%nat); (50987, 2%nat); (50988, 2%nat); (50989, 2%nat); (50992, 2%nat); (50995, 3%nat); (50996, 2%nat); (50997, 2%nat); (50999, 3%nat);
(51000, 4%nat); (51005, 3%nat); (51006, 3%nat); (51015, 3%nat); (51017, 4%nat); (51018, 2%nat); (51020, 3%nat); (51022, 4%nat); (51023, 3%nat); (51024, 3%nat);
(51025, 3%nat); (51026, 3%nat); (51027, 3%nat); (51028, 3%nat); (51030, 3%nat); (51031, 2%nat); (51033, 3%nat); (51034, 3%nat); (51035, 3%nat); (51036, 2%nat);
(51040, 4%nat); (51045, 2%nat); (51046, 2%nat); (51047, 3%nat); (51126, 3%nat); (51201, 3%nat); (51202, 3%nat); (51203, 3%nat); (51204, 3%nat); (51205, 4%nat);
(51207, 3%nat); (51209, 4%nat); (51210, 2%nat); (51211, 2%nat); (51212, 2%nat); (51213, 3%nat); (51214, 4%nat); (51215, 2%nat); (51216, 2%nat); (51217, 3%nat);
(51218, 4%nat); (51221, 2%nat); (51222, 2%nat); (51223, 3%nat); (51457, 3%nat); (51458, 3%nat); (51459, 3%nat); (51460, 3%nat); (51461, 3%nat); (51462, 3%nat);
(51463, 3%nat); (51464, 3%nat); (51467, 3%nat); (51468, 3%nat); (51469, 3%nat); (51470, 3%nat); (51471, 3%nat); (51472, 3%nat); (51473, 3%nat); (51474, 3%nat);
(51475, 3%nat); (51476, 3%nat); (51477, 3%nat); (51478, 3%nat); (51479, 3%nat); (51496, 3%nat); (51497, 3%nat); (51498, 3%nat); (51499, 3%nat); (51500, 3%nat);
(51501, 3%nat); (51502, 3%nat); (51503, 3%nat); (51504, 3%nat); (51505, 3%nat); (51506, 3%nat); (51507, 3%nat); (51508, 3%nat); (51509, 3%nat); (51510, 2%nat);
(51511, 3%nat); (51512, 3%nat); (51513, 3%nat); (51516, 4%nat); (51517, 5%nat); (51518, 5%nat); (51519, 5%nat); (51520, 5%nat); (51521, 5%nat); (51522, 5%nat);
(51526, 2%nat); (51527, 3%nat); (51713, 4%nat); (51714, 4%nat); (51715, 4%nat); (51716, 4%nat); (51717, 4%nat); (51718, 4%nat); (51719, 4%nat); (51720, 2%nat);
(51721, 2%nat); (51722, 2%nat); (51726, 3%nat); (51727, 3%nat); (51728, 3%nat); (51731, 2%nat); (51732, 2%nat); (51735, 3%nat); (51736, 3%nat); (51738, 2%nat);
(51739, 2%nat); (51740, 2%nat); (51742, 2%nat); (51762, 3%nat); (51764, 2%nat); (51767, 3%nat); (51772, 2%nat); (51773, 2%nat); (51774, 2%nat); (51775, 2%nat);
(51776, 2%nat); (51777, 2%nat); (51778, 2%nat); (51780, 2%nat); (51782, 3%nat); (51783, 3%nat); (51784, 3%nat); (51969, 3%nat); (51970, 3%nat); (51973, 2%nat);
(51975, 2%nat); (51976, 2%nat); (51977, 3%nat); (51978, 2%nat); (51979, 2%nat); (51980, 3%nat); (52225, 3%nat); (52226, 3%nat); (52227, 4%nat); (52228, 4%nat);
(52229, 4%nat); (52230, 3%nat); (52231, 4%nat); (52238, 2%nat); (52239, 2%nat); (52240, 3%nat); (52241, 2%nat); (52242, 3%nat); (52243, 4%nat); (52244, 4%nat);
(52245, 4%nat); (52246, 4%nat); (52247, 4%nat); (52248, 5%nat); (52249, 5%nat); (52250, 2%nat); (52251, 4%nat); (52252, 2%nat); (52269, 2%nat); (52274, 2%nat);
(52275, 2%nat); (52276, 2%nat); (52277, 2%nat); (52282, 2%nat); (52283, 2%nat); (52285, 3%nat); (52294, 2%nat); (52512, 2%nat); (52522, 2%nat); (52993, 2%nat);
(52994, 2%nat); (52995, 2%nat); (52996, 2%nat); (52999, 2%nat); (53000, 3%nat); (53001, 2%nat); (53249, 2%nat); (53268, 2%nat); (53269, 2%nat); (53270, 2%nat);
(53274, 3%nat); (53275, 3%nat); (53278, 3%nat); (53279, 4%nat); (53280, 4%nat); (53281, 4%nat); (53282, 5%nat); (53283, 5%nat); (53284, 5%nat); (53285, 5%nat);
(53286, 5%nat); (53287, 5%nat); (53288, 4%nat); (53298, 2%nat); (53300, 2%nat); (53308, 2%nat); (53309, 2%nat); (53319, 6%nat); (53320, 6%nat); (53321, 6%nat);
(53322, 4%nat); (53323, 5%nat); (53324, 5%nat); (53325, 5%nat); (53326, 5%nat); (53327, 5%nat); (53328, 5%nat); (53329, 5%nat); (53761, 3%nat); (53763, 3%nat);
(53764, 3%nat); (54532, 3%nat); (59393, 2%nat); (59399, 2%nat); (59400, 2%nat); (59401, 2%nat); (59404, 2%nat); (59407, 2%nat); (59408, 3%nat); (59409, 2%nat)].

Definition depths_D0000000000254019001 : list (Z * nat) := [
(49156, 2%nat); (49162, 2%nat); (49422, 2%nat); (49433, 2%nat); (49434, 2%nat); (49435, 3%nat); (49436, 2%nat); (49439, 2%nat); (49440, 2%nat); (49441, 2%nat);
(49442, 2%nat); (49443, 2%nat); (49444, 2%nat); (49445, 2%nat); (49446, 2%nat); (49447, 2%nat); (49448, 2%nat); (49449, 2%nat); (49450, 3%nat); (49451, 2%nat);
(49452, 2%nat); (49453, 2%nat); (49455, 3%nat); (49459, 2%nat); (49463, 2%nat); (49466, 3%nat); (49467, 2%nat); (49470, 2%nat); (49474, 2%nat); (49480, 2%nat);
(49498, 2%nat); (49500, 2%nat); (49501, 3%nat); (49518, 2%nat); (49519, 2%nat); (49521, 2%nat); (49522, 2%nat); (49528, 4%nat); (49529, 3%nat); (49530, 2%nat);
(49531, 2%nat); (49675, 2%nat); (49676, 2%nat); (49677, 2%nat); (49688, 2%nat); (49695, 2%nat); (49699, 2%nat); (49707, 2%nat); (49718, 2%nat); (49721, 3%nat);
(49724, 2%nat); (49726, 3%nat); (49727, 2%nat); (49731, 2%nat); (49748, 3%nat); (49749, 2%nat); (49942, 2%nat); (49943, 2%nat); (49944, 2%nat); (49960, 3%nat);
(50435, 2%nat); (50439, 2%nat); (50440, 2%nat); (50441, 3%nat); (50443, 2%nat); (50450, 3%nat); (50694, 2%nat); (50695, 2%nat); (50699, 2%nat); (50700, 2%nat);
(50701, 3%nat); (50702, 3%nat); (50704, 2%nat); (50707, 2%nat); (50711, 2%nat); (50715, 2%nat); (50716, 3%nat); (50718, 3%nat); (50719, 3%nat); (50945, 3%nat);
(50946, 3%nat); (50947, 4%nat); (50948, 4%nat); (50949, 4%nat); (50950, 4%nat); (50951, 3%nat); (50952, 3%nat); (50953, 3%nat); (50955, 2%nat); (50959, 2%nat);
(50962, 2%nat); (50964, 3%nat); (50965, 3%nat); (50966, 2%nat); (50989, 2%nat); (50992, 2%nat); (50995, 3%nat); (50996, 2%nat); (50997, 2%nat); (50999, 3%nat);
(51000, 4%nat); (51015, 3%nat); (51017, 4%nat); (51023, 3%nat); (51024, 3%nat); (51025, 3%nat); (51026, 3%nat); (51027, 3%nat); (51028, 3%nat); (51030, 3%nat);
(51034, 3%nat); (51035, 3%nat); (51036, 3%nat); (51040, 4%nat); (51201, 3%nat); (51202, 3%nat); (51203, 3%nat); (51204, 3%nat); (51205, 4%nat); (51207, 3%nat);
(51208, 4%nat); (51209, 4%nat); (51210, 2%nat); (51211, 2%nat); (51212, 2%nat); (51213, 3%nat); (51214, 4%nat); (51215, 2%nat); (51216, 2%nat); (51457, 3%nat);
(51458, 3%nat); (51459, 3%nat); (51460, 3%nat); (51461, 3%nat); (51462, 3%nat); (51463, 3%nat); (51464, 3%nat); (51467, 3%nat); (51468, 3%nat); (51469, 3%nat);
(51470, 3%nat); (51471, 3%nat); (51472, 3%nat); (51473, 3%nat); (51474, 3%nat); (51475, 3%nat); (51476, 3%nat); (51506, 3%nat); (51507, 3%nat); (51508, 3%nat);
(51509, 3%nat); (51510, 2%nat); (51516, 4%nat); (51517, 5%nat); (51518, 5%nat); (51519, 5%nat); (51520, 5%nat); (51521, 5%nat); (51522, 5%nat); (51526, 2%nat);
(51713, 4%nat); (51714, 4%nat); (51715, 4%nat); (51716, 4%nat); (51717, 4%nat); (51718, 4%nat); (51719, 4%nat); (51720, 2%nat); (51721, 2%nat); (51722, 2%nat);
(51726, 3%nat); (51727, 3%nat); (51728, 3%nat); (51731, 2%nat); (51732, 2%nat); (51735, 3%nat); (51736, 3%nat); (51738, 2%nat); (51739, 2%nat); (51740, 2%nat);
(51742, 2%nat); (51762, 3%nat); (51764, 2%nat); (51767, 3%nat); (51772, 2%nat); (51773, 2%nat); (51774, 2%nat); (51775, 2%nat); (51907, 2%nat); (51969, 3%nat);
(51970, 3%nat); (51973, 2%nat); (51975, 2%nat); (51976, 2%nat); (51977, 3%nat); (51978, 2%nat); (52225, 3%nat); (52226, 3%nat); (52227, 4%nat); (52228, 4%nat);
(52229, 4%nat); (52230, 3%nat); (52231, 4%nat); (52238, 2%nat); (52239, 2%nat); (52240, 3%nat); (52241, 2%nat); (52242, 3%nat); (52243, 4%nat); (52244, 4%nat);
(52245, 4%nat); (52246, 4%nat); (52247, 4%nat); (52248, 5%nat); (52249, 5%nat); (52250, 2%nat); (52251, 4%nat); (52252, 2%nat); (52269, 2%nat); (52274, 2%nat);
(52275, 2%nat); (52276, 2%nat); (52277, 2%nat); (52282, 2%nat); (52283, 2%nat); (52285, 3%nat); (52294, 2%nat); (52512, 2%nat); (52522, 2%nat); (52993, 2%nat);
(52994, 2%nat); (52995, 2%nat); (52996, 2%nat); (52998, 2%nat); (53249, 2%nat); (53270, 2%nat); (53278, 3%nat); (53279, 4%nat); (53280, 4%nat); (53281, 4%nat);
(53282, 5%nat); (53283, 5%nat); (53284, 5%nat); (53285, 5%nat); (53286, 5%nat); (53287, 5%nat); (53288, 4%nat); (53298, 2%nat); (53300, 2%nat); (53319, 6%nat);
(53320, 6%nat); (53321, 6%nat); (53322, 4%nat); (53323, 5%nat); (53324, 5%nat); (53325, 5%nat); (53326, 5%nat); (53327, 5%nat); (53328, 5%nat); (53329, 5%nat);
(53761, 3%nat); (53763, 3%nat); (53764, 3%nat); (54532, 3%nat); (59393, 2%nat); (59399, 2%nat); (59400, 2%nat); (59401, 2%nat)].

Definition depths_D000000000980000 : list (Z * nat) := [
(49156, 2%nat); (49162, 2%nat); (49433, 2%nat); (49434, 2%nat); (49439, 2%nat); (49440, 2%nat); (49441, 2%nat); (49442, 2%nat); (49443, 2%nat); (49444, 2%nat);
(49445, 2%nat); (49446, 2%nat); (49447, 2%nat); (49448, 2%nat); (49449, 2%nat); (49450, 3%nat); (49451, 2%nat); (49452, 2%nat); (49459, 2%nat); (49602, 2%nat);
(49603, 2%nat); (49645, 2%nat); (49675, 2%nat); (49676, 2%nat); (49688, 2%nat); (49942, 2%nat); (49943, 2%nat); (49944, 2%nat); (50694, 2%nat); (50695, 2%nat);
(50945, 3%nat); (50946, 3%nat); (50947, 4%nat); (50948, 4%nat); (50949, 4%nat); (50950, 4%nat); (50951, 3%nat); (50952, 3%nat); (51201, 3%nat); (51202, 3%nat);
(51203, 3%nat); (51204, 3%nat); (51205, 4%nat); (51457, 3%nat); (51458, 3%nat); (51459, 3%nat); (51460, 3%nat); (51461, 3%nat); (51462, 3%nat); (51463, 3%nat);
(51464, 3%nat); (51467, 3%nat); (51468, 3%nat); (51469, 3%nat); (51470, 3%nat); (51471, 3%nat); (51472, 3%nat); (51473, 3%nat); (51474, 3%nat); (51475, 3%nat);
(51650, 3%nat); (51651, 3%nat); (51713, 4%nat); (51714, 4%nat); (51715, 4%nat); (51716, 4%nat); (51969, 3%nat); (52225, 3%nat); (52226, 3%nat); (52227, 4%nat);
(52228, 4%nat); (52229, 4%nat); (52230, 3%nat); (52231, 4%nat); (52238, 2%nat); (52239, 2%nat); (52240, 3%nat); (52241, 2%nat); (52242, 3%nat); (52424, 3%nat);
(52425, 3%nat); (52426, 3%nat); (52427, 3%nat); (52428, 4%nat); (52512, 2%nat); (52522, 2%nat); (52993, 2%nat); (52994, 2%nat); (53249, 2%nat); (53761, 3%nat);
(53763, 3%nat); (53764, 3%nat); (54532, 3%nat)].

Definition depths_D000000000980600 : list (Z * nat) := [
(49156, 2%nat); (49162, 2%nat); (49433, 2%nat); (49434, 2%nat); (49437, 2%nat); (49438, 2%nat); (49439, 2%nat); (49440, 2%nat); (49441, 2%nat); (49442, 2%nat);
(49443, 2%nat); (49444, 2%nat); (49445, 2%nat); (49446, 2%nat); (49447, 2%nat); (49448, 2%nat); (49449, 2%nat); (49450, 3%nat); (49451, 2%nat); (49452, 2%nat);
(49453, 2%nat); (49455, 3%nat); (49459, 2%nat); (49463, 2%nat); (49470, 2%nat); (49474, 2%nat); (49480, 2%nat); (49483, 2%nat); (49602, 2%nat); (49603, 2%nat);
(49604, 2%nat); (49645, 2%nat); (49658, 2%nat); (49675, 2%nat); (49676, 2%nat); (49677, 2%nat); (49688, 2%nat); (49870, 2%nat); (49942, 2%nat); (49943, 2%nat);
(49944, 2%nat); (50694, 2%nat); (50695, 2%nat); (50711, 2%nat); (50945, 3%nat); (50946, 3%nat); (50947, 4%nat); (50948, 4%nat); (50949, 4%nat); (50950, 4%nat);
(50951, 3%nat); (50952, 3%nat); (50953, 3%nat); (50955, 2%nat); (50959, 2%nat); (50962, 2%nat); (50964, 3%nat); (50965, 3%nat); (50985, 2%nat); (50986, 2%nat);
(50987, 2%nat); (51201, 3%nat); (51202, 3%nat); (51203, 3%nat); (51204, 3%nat); (51205, 4%nat); (51207, 3%nat); (51457, 3%nat); (51458, 3%nat); (51459, 3%nat);
(51460, 3%nat); (51461, 3%nat); (51462, 3%nat); (51463, 3%nat); (51464, 3%nat); (51467, 3%nat); (51468, 3%nat); (51469, 3%nat); (51470, 3%nat); (51471, 3%nat);
(51472, 3%nat); (51473, 3%nat); (51474, 3%nat); (51475, 3%nat); (51476, 3%nat); (51496, 3%nat); (51498, 3%nat); (51650, 3%nat); (51651, 3%nat); (51652, 3%nat);
(51713, 4%nat); (51714, 4%nat); (51715, 4%nat); (51716, 4%nat); (51717, 4%nat); (51718, 4%nat); (51719, 4%nat); (51720, 2%nat); (51721, 2%nat); (51722, 2%nat);
(51726, 3%nat); (51727, 3%nat); (51728, 3%nat); (51732, 2%nat); (51735, 3%nat); (51736, 3%nat); (51762, 3%nat); (51764, 2%nat); (51767, 3%nat); (51905, 3%nat);
(51906, 3%nat); (51907, 3%nat); (51908, 3%nat); (51969, 3%nat); (51970, 3%nat); (52161, 2%nat); (52225, 3%nat); (52226, 3%nat); (52227, 4%nat); (52228, 4%nat);
(52229, 4%nat); (52230, 3%nat); (52231, 4%nat); (52238, 2%nat); (52239, 2%nat); (52240, 3%nat); (52241, 2%nat); (52242, 3%nat); (52244, 4%nat); (52245, 4%nat);
(52246, 4%nat); (52247, 4%nat); (52248, 5%nat); (52250, 2%nat); (52251, 4%nat); (52252, 2%nat); (52424, 3%nat); (52425, 3%nat); (52426, 3%nat); (52427, 3%nat);
(52428, 4%nat); (52431, 4%nat); (52432, 2%nat); (52433, 3%nat); (52434, 4%nat); (52435, 3%nat); (52436, 2%nat); (52512, 2%nat); (52522, 2%nat); (52993, 2%nat);
(52994, 2%nat); (53249, 2%nat); (53761, 3%nat); (53763, 3%nat); (53764, 3%nat); (54532, 3%nat)].

Definition depths_D000000000980601 : list (Z * nat) := [
(49156, 2%nat); (49162, 2%nat); (49433, 2%nat); (49434, 2%nat); (49437, 2%nat); (49438, 2%nat); (49439, 2%nat); (49440, 2%nat); (49441, 2%nat); (49442, 2%nat);
(49443, 2%nat); (49444, 2%nat); (49445, 2%nat); (49446, 2%nat); (49447, 2%nat); (49448, 2%nat); (49449, 2%nat); (49450, 3%nat); (49451, 2%nat); (49452, 2%nat);
(49453, 2%nat); (49455, 3%nat); (49459, 2%nat); (49463, 2%nat); (49470, 2%nat); (49474, 2%nat); (49480, 2%nat); (49483, 2%nat); (49602, 2%nat); (49603, 2%nat);
(49604, 2%nat); (49606, 2%nat); (49645, 2%nat); (49658, 2%nat); (49675, 2%nat); (49676, 2%nat); (49677, 2%nat); (49688, 2%nat); (49870, 2%nat); (49942, 2%nat);
(49943, 2%nat); (49944, 2%nat); (50694, 2%nat); (50695, 2%nat); (50711, 2%nat); (50945, 3%nat); (50946, 3%nat); (50947, 4%nat); (50948, 4%nat); (50949, 4%nat);
(50950, 4%nat); (50951, 3%nat); (50952, 3%nat); (50953, 3%nat); (50955, 2%nat); (50959, 2%nat); (50962, 2%nat); (50964, 3%nat); (50965, 3%nat); (50985, 2%nat);
(50986, 2%nat); (50987, 2%nat); (51005, 3%nat); (51006, 3%nat); (51201, 3%nat); (51202, 3%nat); (51203, 3%nat); (51204, 3%nat); (51205, 4%nat); (51207, 3%nat);
(51457, 3%nat); (51458, 3%nat); (51459, 3%nat); (51460, 3%nat); (51461, 3%nat); (51462, 3%nat); (51463, 3%nat); (51464, 3%nat); (51467, 3%nat); (51468, 3%nat);
(51469, 3%nat); (51470, 3%nat); (51471, 3%nat); (51472, 3%nat); (51473, 3%nat); (51474, 3%nat); (51475, 3%nat); (51476, 3%nat); (51496, 3%nat); (51498, 3%nat);
(51650, 3%nat); (51651, 3%nat); (51652, 3%nat); (51654, 3%nat); (51713, 4%nat); (51714, 4%nat); (51715, 4%nat); (51716, 4%nat); (51717, 4%nat); (51718, 4%nat);
(51719, 4%nat); (51720, 2%nat); (51721, 2%nat); (51722, 2%nat); (51726, 3%nat); (51727, 3%nat); (51728, 3%nat); (51732, 2%nat); (51735, 3%nat); (51736, 3%nat);
(51762, 3%nat); (51764, 2%nat); (51767, 3%nat); (51905, 3%nat); (51906, 3%nat); (51907, 3%nat); (51908, 3%nat); (51969, 3%nat); (51970, 3%nat); (52161, 2%nat);
(52225, 3%nat); (52226, 3%nat); (52227, 4%nat); (52228, 4%nat); (52229, 4%nat); (52230, 3%nat); (52231, 4%nat); (52238, 2%nat); (52239, 2%nat); (52240, 3%nat);
(52241, 2%nat); (52242, 3%nat); (52244, 4%nat); (52245, 4%nat); (52246, 4%nat); (52247, 4%nat); (52248, 5%nat); (52250, 2%nat); (52251, 4%nat); (52252, 2%nat);
(52424, 3%nat); (52425, 3%nat); (52426, 3%nat); (52427, 3%nat); (52428, 4%nat); (52431, 4%nat); (52432, 2%nat); (52433, 3%nat); (52434, 4%nat); (52435, 3%nat);
(52436, 2%nat); (52512, 2%nat); (52522, 2%nat); (52993, 2%nat); (52994, 2%nat); (53249, 2%nat); (53761, 3%nat); (53763, 3%nat); (53764, 3%nat); (54532, 3%nat)].

Definition depths_D000000000981101 : list (Z * nat) := [
(49156, 2%nat); (49162, 2%nat); (49433, 2%nat); (49434, 2%nat); (49439, 2%nat); (49440, 2%nat); (49441, 2%nat); (49442, 2%nat); (49443, 2%nat); (49444, 2%nat);
(49445, 2%nat); (49446, 2%nat); (49447, 2%nat); (49448, 2%nat); (49449, 2%nat); (49450, 3%nat); (49451, 2%nat); (49452, 2%nat); (49453, 2%nat); (49455, 3%nat);
(49459, 2%nat); (49463, 2%nat); (49470, 2%nat); (49474, 2%nat); (49480, 2%nat); (49498, 2%nat); (49602, 2%nat); (49603, 2%nat); (49604, 2%nat); (49645, 2%nat);
(49658, 2%nat); (49675, 2%nat); (49676, 2%nat); (49677, 2%nat); (49688, 2%nat); (49870, 2%nat); (49942, 2%nat); (49943, 2%nat); (49944, 2%nat); (50435, 2%nat);
(50439, 2%nat); (50440, 2%nat); (50441, 3%nat); (50443, 2%nat); (50450, 3%nat); (50694, 2%nat); (50695, 2%nat); (50708, 3%nat); (50709, 2%nat); (50710, 2%nat);
(50711, 2%nat); (50712, 2%nat); (50945, 3%nat); (50946, 3%nat); (50947, 4%nat); (50948, 4%nat); (50949, 4%nat); (50950, 4%nat); (50951, 3%nat); (50952, 3%nat);
(50953, 3%nat); (50955, 2%nat); (50959, 2%nat); (50962, 2%nat); (50964, 3%nat); (50965, 3%nat); (50966, 2%nat); (50985, 2%nat); (50986, 2%nat); (50987, 2%nat);
(51201, 3%nat); (51202, 3%nat); (51203, 3%nat); (51204, 3%nat); (51205, 4%nat); (51207, 3%nat); (51457, 3%nat); (51458, 3%nat); (51459, 3%nat); (51460, 3%nat);
(51461, 3%nat); (51462, 3%nat); (51463, 3%nat); (51464, 3%nat); (51467, 3%nat); (51468, 3%nat); (51469, 3%nat); (51470, 3%nat); (51471, 3%nat); (51472, 3%nat);
(51473, 3%nat); (51474, 3%nat); (51475, 3%nat); (51476, 3%nat); (51496, 2%nat); (51498, 3%nat); (51650, 3%nat); (51651, 3%nat); (51652, 3%nat); (51713, 4%nat);
(51714, 4%nat); (51715, 4%nat); (51716, 4%nat); (51717, 4%nat); (51718, 4%nat); (51719, 4%nat); (51720, 2%nat); (51721, 2%nat); (51722, 2%nat); (51726, 3%nat);
(51727, 3%nat); (51728, 3%nat); (51732, 2%nat); (51735, 3%nat); (51736, 3%nat); (51742, 2%nat); (51762, 3%nat); (51764, 2%nat); (51767, 3%nat); (51905, 3%nat);
(51906, 3%nat); (51907, 3%nat); (51908, 3%nat); (51969, 3%nat); (51970, 3%nat); (51973, 2%nat); (52161, 2%nat); (52225, 3%nat); (52226, 3%nat); (52227, 4%nat);
(52228, 4%nat); (52229, 4%nat); (52230, 3%nat); (52231, 4%nat); (52238, 2%nat); (52239, 2%nat); (52240, 3%nat); (52241, 2%nat); (52242, 3%nat); (52243, 4%nat);
(52244, 4%nat); (52245, 4%nat); (52246, 4%nat); (52247, 4%nat); (52248, 5%nat); (52249, 5%nat); (52250, 2%nat); (52251, 4%nat); (52252, 2%nat); (52269, 2%nat);
(52274, 2%nat); (52275, 2%nat); (52276, 2%nat); (52277, 2%nat); (52424, 3%nat); (52425, 3%nat); (52426, 3%nat); (52427, 3%nat); (52428, 4%nat); (52431, 4%nat);
(52432, 2%nat); (52433, 3%nat); (52434, 4%nat); (52435, 3%nat); (52436, 2%nat); (52512, 2%nat); (52522, 2%nat); (52993, 2%nat); (52994, 2%nat); (53249, 2%nat);
(53270, 2%nat); (53761, 3%nat); (53763, 3%nat); (53764, 3%nat); (54532, 3%nat)].

Definition depths_D000000000981301 : list (Z * nat) := [
(49156, 2%nat); (49162, 2%nat); (49422, 2%nat); (49433, 2%nat); (49434, 2%nat); (49435, 3%nat); (49436, 2%nat); (49439, 2%nat); (49440, 2%nat); (49441, 2%nat);
(49442, 2%nat); (49443, 2%nat); (49444, 2%nat); (49445, 2%nat); (49446, 2%nat); (49447, 2%nat); (49448, 2%nat); (49449, 2%nat); (49450, 3%nat); (49451, 2%nat);
(49452, 2%nat); (49453, 2%nat); (49455, 3%nat); (49459, 2%nat); (49463, 2%nat); (49470, 2%nat); (49474, 2%nat); (49480, 2%nat); (49483, 2%nat); (49498, 2%nat);
(49500, 2%nat); (49501, 3%nat); (49518, 2%nat); (49519, 2%nat); (49521, 2%nat); (49522, 2%nat); (49528, 4%nat); (49529, 3%nat); (49530, 2%nat); (49531, 2%nat);
(49602, 2%nat); (49603, 2%nat); (49604, 2%nat); (49606, 2%nat); (49645, 2%nat); (49658, 2%nat); (49675, 2%nat); (49676, 2%nat); (49677, 2%nat); (49688, 2%nat);
(49695, 2%nat); (49699, 2%nat); (49707, 2%nat); (49718, 2%nat); (49721, 3%nat); (49724, 2%nat); (49726, 3%nat); (49727, 2%nat); (49870, 2%nat); (49942, 2%nat);
(49943, 2%nat); (49944, 2%nat); (49960, 3%nat); (50435, 2%nat); (50439, 2%nat); (50440, 2%nat); (50441, 3%nat); (50443, 2%nat); (50450, 3%nat); (50694, 2%nat);
(50695, 2%nat); (50707, 2%nat); (50708, 3%nat); (50709, 2%nat); (50710, 2%nat); (50711, 2%nat); (50712, 2%nat); (50713, 3%nat); (50945, 3%nat); (50946, 3%nat);
(50947, 4%nat); (50948, 4%nat); (50949, 4%nat); (50950, 4%nat); (50951, 3%nat); (50952, 3%nat); (50953, 3%nat); (50955, 2%nat); (50959, 2%nat); (50962, 2%nat);
(50964, 3%nat); (50965, 3%nat); (50966, 2%nat); (50985, 2%nat); (50986, 2%nat); (50987, 2%nat); (50989, 2%nat); (50992, 2%nat); (50996, 2%nat); (50997, 2%nat);
(50999, 3%nat); (51000, 4%nat); (51003, 3%nat); (51005, 3%nat); (51006, 3%nat); (51015, 3%nat); (51017, 4%nat); (51024, 3%nat); (51025, 3%nat); (51026, 3%nat);
(51027, 3%nat); (51028, 3%nat); (51030, 3%nat); (51034, 3%nat); (51201, 3%nat); (51202, 3%nat); (51203, 3%nat); (51204, 3%nat); (51205, 4%nat); (51207, 3%nat);
(51208, 2%nat); (51209, 4%nat); (51210, 2%nat); (51211, 2%nat); (51212, 2%nat); (51213, 3%nat); (51457, 3%nat); (51458, 3%nat); (51459, 3%nat); (51460, 3%nat);
(51461, 3%nat); (51462, 3%nat); (51463, 3%nat); (51464, 3%nat); (51467, 3%nat); (51468, 3%nat); (51469, 3%nat); (51470, 3%nat); (51471, 3%nat); (51472, 3%nat);
(51473, 3%nat); (51474, 3%nat); (51475, 3%nat); (51476, 3%nat); (51496, 3%nat); (51498, 3%nat); (51506, 3%nat); (51507, 3%nat); (51508, 3%nat); (51509, 3%nat);
(51510, 2%nat); (51516, 4%nat); (51517, 5%nat); (51518, 5%nat); (51519, 5%nat); (51520, 5%nat); (51521, 5%nat); (51522, 5%nat); (51650, 3%nat); (51651, 3%nat);
(51652, 3%nat); (51654, 3%nat); (51713, 4%nat); (51714, 4%nat); (51715, 4%nat); (51716, 4%nat); (51717, 4%nat); (51718, 4%nat); (51719, 4%nat); (51720, 2%nat);
(51721, 2%nat); (51722, 2%nat); (51726, 3%nat); (51727, 3%nat); (51728, 3%nat); (51731, 2%nat); (51732, 2%nat); (51735, 3%nat); (51736, 3%nat); (51738, 2%nat);
(51739, 2%nat); (51742, 2%nat); (51762, 3%nat); (51764, 2%nat); (51767, 3%nat); (51905, 3%nat); (51906, 3%nat); (51907, 3%nat); (51908, 3%nat); (51938, 2%nat);
(51969, 3%nat); (51970, 3%nat); (51973, 2%nat); (51975, 2%nat); (51976, 2%nat); (51977, 3%nat); (52161, 2%nat); (52225, 3%nat); (52226, 3%nat); (52227, 4%nat);
(52228, 4%nat); (52229, 4%nat); (52230, 3%nat); (52231, 4%nat); (52238, 2%nat); (52239, 2%nat); (52240, 3%nat); (52241, 2%nat); (52242, 3%nat); (52243, 4%nat);
(52244, 4%nat); (52245, 4%nat); (52246, 4%nat); (52247, 4%nat); (52248, 5%nat); (52249, 5%nat); (52250, 2%nat); (52251, 4%nat); (52252, 2%nat); (52269, 2%nat);
(52274, 2%nat); (52275, 2%nat); (52276, 2%nat); (52277, 2%nat); (52282, 2%nat); (52283, 2%nat); (52285, 3%nat); (52294, 2%nat); (52424, 3%nat); (52425, 3%nat);
(52426, 3%nat); (52427, 3%nat); (52428, 4%nat); (52431, 4%nat); (52432, 2%nat); (52433, 3%nat); (52434, 4%nat); (52435, 3%nat); (52436, 2%nat); (52512, 2%nat);
(52522, 2%nat); (52993, 2%nat); (52994, 2%nat); (52995, 2%nat); (53249, 2%nat); (53268, 2%nat); (53269, 2%nat); (53270, 2%nat); (53274, 3%nat); (53278, 3%nat);
(53279, 4%nat); (53280, 4%nat); (53281, 4%nat); (53282, 5%nat); (53283, 5%nat); (53284, 5%nat); (53285, 5%nat); (53286, 5%nat); (53287, 5%nat); (53288, 4%nat);
(53298, 2%nat); (53300, 2%nat); (53761, 3%nat); (53763, 3%nat); (53764, 3%nat); (54532, 3%nat); (59393, 2%nat); (59397, 2%nat)].

Definition depths_D000000002551104 : list (Z * nat) := [
(49156, 2%nat); (49162, 2%nat); (49433, 2%nat); (49434, 2%nat); (49439, 2%nat); (49440, 2%nat); (49441, 2%nat); (49442, 2%nat); (49443, 2%nat); (49444, 2%nat);
(49445, 2%nat); (49446, 2%nat); (49447, 2%nat); (49448, 2%nat); (49449, 2%nat); (49450, 3%nat); (49451, 2%nat); (49452, 2%nat); (49453, 2%nat); (49455, 3%nat);
(49459, 2%nat); (49463, 2%nat); (49470, 2%nat); (49474, 2%nat); (49480, 2%nat); (49498, 2%nat); (49600, 2%nat); (49675, 2%nat); (49676, 2%nat); (49677, 2%nat);
(49688, 2%nat); (49942, 2%nat); (49943, 2%nat); (49944, 2%nat); (50435, 2%nat); (50439, 2%nat); (50440, 2%nat); (50441, 3%nat); (50443, 2%nat); (50450, 3%nat);
(50694, 2%nat); (50695, 2%nat); (50711, 2%nat); (50945, 3%nat); (50946, 3%nat); (50947, 4%nat); (50948, 4%nat); (50949, 4%nat); (50950, 4%nat); (50951, 3%nat);
(50952, 3%nat); (50953, 3%nat); (50955, 2%nat); (50959, 2%nat); (50962, 2%nat); (50964, 3%nat); (50965, 3%nat); (50966, 2%nat); (51201, 3%nat); (51202, 3%nat);
(51203, 3%nat); (51204, 3%nat); (51205, 4%nat); (51207, 3%nat); (51476, 3%nat); (51713, 4%nat); (51714, 4%nat); (51715, 4%nat); (51716, 4%nat); (51717, 4%nat);
(51718, 4%nat); (51719, 4%nat); (51720, 2%nat); (51721, 2%nat); (51722, 2%nat); (51726, 3%nat); (51727, 3%nat); (51728, 3%nat); (51732, 2%nat); (51735, 3%nat);
(51736, 3%nat); (51969, 3%nat); (51970, 3%nat); (51973, 2%nat); (52225, 3%nat); (52226, 3%nat); (52227, 4%nat); (52228, 4%nat); (52229, 4%nat); (52230, 3%nat);
(52231, 4%nat); (52238, 2%nat); (52239, 2%nat); (52240, 3%nat); (52241, 2%nat); (52242, 3%nat); (52243, 4%nat); (52244, 4%nat); (52245, 4%nat); (52246, 4%nat);
(52247, 4%nat); (52248, 5%nat); (52249, 5%nat); (52250, 2%nat); (52251, 4%nat); (52252, 2%nat); (52512, 2%nat); (52522, 2%nat); (52993, 2%nat); (52994, 2%nat);
(53249, 2%nat); (53270, 2%nat); (53761, 3%nat); (53763, 3%nat); (53764, 3%nat); (54532, 3%nat)].

Definition depths_D000101 : list (Z * nat) := [
(49156, 2%nat); (49162, 2%nat); (49433, 2%nat); (49434, 2%nat); (49437, 2%nat); (49438, 2%nat); (49439, 2%nat); (49440, 2%nat); (49441, 2%nat); (49442, 2%nat);
(49443, 2%nat); (49444, 2%nat); (49445, 2%nat); (49446, 2%nat); (49447, 2%nat); (49448, 2%nat); (49449, 2%nat); (49450, 3%nat); (49451, 2%nat); (49452, 2%nat);
(49459, 2%nat); (49463, 2%nat); (49470, 2%nat); (49474, 2%nat); (49480, 2%nat); (49483, 2%nat); (49498, 2%nat); (49658, 2%nat); (49675, 2%nat); (49676, 2%nat);
(49677, 2%nat); (49688, 2%nat); (50434, 2%nat); (50435, 2%nat); (50436, 3%nat); (50439, 3%nat); (50440, 2%nat); (50441, 3%nat); (50442, 3%nat); (50443, 4%nat);
(50450, 3%nat); (50694, 2%nat); (50695, 2%nat); (50708, 2%nat); (50709, 2%nat); (50710, 2%nat); (50711, 2%nat); (50712, 3%nat); (50945, 3%nat); (50946, 3%nat);
(50947, 4%nat); (50948, 4%nat); (50949, 4%nat); (50950, 4%nat); (50951, 3%nat); (50952, 3%nat); (50953, 3%nat); (50955, 2%nat); (50959, 2%nat); (50962, 2%nat);
(50964, 3%nat); (50965, 3%nat); (50985, 2%nat); (50986, 2%nat); (50987, 2%nat); (50988, 2%nat); (51005, 3%nat); (51006, 3%nat); (51201, 3%nat); (51202, 3%nat);
(51203, 3%nat); (51204, 3%nat); (51205, 4%nat); (51207, 3%nat); (51457, 3%nat); (51458, 3%nat); (51459, 3%nat); (51460, 3%nat); (51461, 3%nat); (51462, 3%nat);
(51463, 3%nat); (51464, 3%nat); (51467, 3%nat); (51468, 3%nat); (51469, 3%nat); (51470, 3%nat); (51471, 3%nat); (51472, 3%nat); (51473, 3%nat); (51474, 3%nat);
(51475, 3%nat); (51476, 3%nat); (51496, 3%nat); (51497, 3%nat); (51498, 3%nat); (51500, 3%nat); (51713, 4%nat); (51714, 4%nat); (51715, 4%nat); (51716, 4%nat);
(51717, 4%nat); (51718, 4%nat); (51719, 4%nat); (51720, 2%nat); (51721, 2%nat); (51722, 2%nat); (51726, 3%nat); (51727, 3%nat); (51728, 3%nat); (51732, 2%nat);
(51735, 3%nat); (51762, 2%nat); (51907, 3%nat); (51969, 3%nat); (51970, 3%nat); (51973, 2%nat); (52161, 2%nat); (52225, 3%nat); (52226, 3%nat); (52227, 4%nat);
(52228, 4%nat); (52229, 4%nat); (52230, 3%nat); (52231, 4%nat); (52238, 2%nat); (52240, 2%nat); (52242, 2%nat); (52244, 2%nat); (52245, 2%nat); (52246, 2%nat);
(52247, 2%nat); (52248, 3%nat); (52249, 2%nat); (52250, 2%nat); (52251, 2%nat); (52269, 2%nat); (52512, 2%nat); (52522, 2%nat); (52993, 2%nat); (52994, 2%nat);
(53249, 2%nat); (53268, 2%nat); (53269, 2%nat); (53270, 2%nat); (53274, 3%nat); (53761, 3%nat); (53763, 3%nat); (53764, 3%nat); (54532, 3%nat); (58113, 2%nat);
(58116, 2%nat); (58122, 2%nat)].

Definition depth_lists : list (string * list (Z * nat)) := [
  ("D0000000000000012000.txt", depths_D0000000000000012000);
  ("D0000000000000013000.txt", depths_D0000000000000013000);
  ("D0000000000000014000.txt", depths_D0000000000000014000);
  ("D0000000000000015000.txt", depths_D0000000000000015000);
  ("D0000000000000016000.txt", depths_D0000000000000015000);
  ("D0000000000000017000.txt", depths_D0000000000000017000);
  ("D0000000000000018000.txt", depths_D0000000000000018000);
  ("D0000000000000019000.txt", depths_D0000000000000019000);
  ("D0000000000000020000.txt", depths_D0000000000000019000);
  ("D0000000000000021000.txt", depths_D0000000000000021000);
  ("D0000000000000022000.txt", depths_D0000000000000022000);
  ("D0000000000000023000.txt", depths_D0000000000000023000);
  ("D0000000000000024000.txt", depths_D0000000000000024000);
  ("D0000000000000025000.txt", depths_D0000000000000025000);
  ("D0000000000000026000.txt", depths_D0000000000000026000);
  ("D0000000000000027000.txt", depths_D0000000000000027000);
  ("D0000000000000028000.txt", depths_D0000000000000028000);
  ("D0000000000000029000.txt", depths_D0000000000000029000);
  ("D0000000000000030000.txt", depths_D0000000000000030000);
  ("D0000000000000031000.txt", depths_D0000000000000031000);
  ("D0000000000000033000.txt", depths_D0000000000000033000);
  ("D0000000000085014001.txt", depths_D0000000000085014001);
  ("D0000000000098013001.txt", depths_D0000000000098013001);
  ("D0000000000098013102.txt", depths_D0000000000098013102);
  ("D0000000000098016001.txt", depths_D0000000000098016001);
  ("D0000000000098033001.txt", depths_D0000000000098033001);
  ("D0000000000098033002.txt", depths_D0000000000098033002);
  ("D0000000000254019001.txt", depths_D0000000000254019001);
  ("D000000000980000.txt", depths_D000000000980000);
  ("D000000000980600.txt", depths_D000000000980600);
  ("D000000000980601.txt", depths_D000000000980601);
  ("D000000000981101.txt", depths_D000000000981101);
  ("D000000000981200.txt", depths_D000000000981101);
  ("D000000000981201.txt", depths_D000000000981101);
  ("D000000000981301.txt", depths_D000000000981301);
  ("D000000002551104.txt", depths_D000000002551104);
  ("D000101.txt", depths_D000101);
  ("D000103.txt", depths_D000101);
  ("D000203.txt", depths_D000101)].
