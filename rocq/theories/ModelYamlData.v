(** The files of data which come with the program: Patro/Measurement/data/valentina-standard-measurements.yaml (lines 1-1272),
    Patro/TextileTechnology/data/fiber.yaml (lines 15-122), as YAML reads them.  This file is generated from them. *)
From Coq Require Import String Ascii List ZArith.
From Verif Require Import ModelFormula ModelYaml.
Import ListNotations.
Local Open Scope string_scope.
Definition y (s : string) : yvalue := YText (lit s).
Definition k (s : string) : ykey := KText (lit s).

Definition topic_A : ykey * yvalue := (k "A", YMap [(k "description", y "Direct Height"); (k "measurements", YMap [
  (k "A01", YList [y "height"; y "Height: Total"; y "Vertical distance from crown of head to floor."; YNum (0)%Z]);
  (k "A02", YList [y "height_neck_back"; y "Height: Neck Back"; y "Vertical distance from the Neck Back (cervicale vertebra) to the floor."; YNum (0)%Z]);
  (k "A03", YList [y "height_scapula"; y "Height: Scapula"; y "Vertical distance from the Scapula (Blade point) to the floor."; YNum (0)%Z]);
  (k "A04", YList [y "height_armpit"; y "Height: Armpit"; y "Vertical distance from the Armpit to the floor."; YNum (0)%Z]);
  (k "A05", YList [y "height_waist_side"; y "Height: Waist Side"; y "Vertical distance from the Waist Side to the floor."; YNum (0)%Z]);
  (k "A06", YList [y "height_hip"; y "Height: Hip"; y "Vertical distance from the Hip level to the floor."; YNum (0)%Z]);
  (k "A07", YList [y "height_gluteal_fold"; y "Height: Gluteal Fold"; y "Vertical distance from the Gluteal fold, where the Gluteal muscle meets the top of the back thigh, to the floor."; YNum (0)%Z]);
  (k "A08", YList [y "height_knee"; y "Height: Knee"; y "Vertical distance from the fold at the back of the Knee to the floor."; YNum (0)%Z]);
  (k "A09", YList [y "height_calf"; y "Height: Calf"; y "Vertical distance from the widest point of the calf to the floor."; YNum (0)%Z]);
  (k "A10", YList [y "height_ankle_high"; y "Height: Ankle High"; y "Vertical distance from the deepest indentation of the back of the ankle to the floor."; YNum (0)%Z]);
  (k "A11", YList [y "height_ankle"; y "Height: Ankle"; y "Vertical distance from point where the front leg meets the foot to the floor."; YNum (0)%Z]);
  (k "A12", YList [y "height_highhip"; y "Height: Highhip"; y "Vertical distance from the Highhip level, where front abdomen is most prominent, to the floor."; YNum (0)%Z]);
  (k "A13", YList [y "height_waist_front"; y "Height: Waist Front"; y "Vertical distance from the Waist Front to the floor."; YNum (0)%Z]);
  (k "A14", YList [y "height_bustpoint"; y "Height: Bustpoint"; y "Vertical distance from Bustpoint to the floor."; YNum (0)%Z]);
  (k "A15", YList [y "height_shoulder_tip"; y "Height: Shoulder Tip"; y "Vertical distance from the Shoulder Tip to the floor."; YNum (0)%Z]);
  (k "A16", YList [y "height_neck_front"; y "Height: Neck Front"; y "Vertical distance from the Neck Front to the floor."; YNum (0)%Z]);
  (k "A17", YList [y "height_neck_side"; y "Height: Neck Side"; y "Vertical distance from the Neck Side to the floor."; YNum (0)%Z]);
  (k "A18", YList [y "height_neck_back_to_knee"; y "Height: Neck Back to Knee"; y "Vertical distance from the Neck Back (cervicale vertebra) to the fold at the back of the knee."; y "height_neck_back - height_knee"]);
  (k "A19", YList [y "height_waist_side_to_knee"; y "Height: Waist Side to Knee"; y "Vertical distance from the Waist Side to the fold at the back of the knee."; y "height_waist_side - height_knee"]);
  (k "A20", YList [y "height_waist_side_to_hip"; y "Height: Waist Side to Hip"; y "Vertical distance from the Waist Side to the Hip level."; y "height_waist_side - height_hip"]);
  (k "A21", YList [y "height_knee_to_ankle"; y "Height: Knee to Ankle"; y "Vertical distance from the fold at the back of the knee to the point where the front leg meets the top of the foot."; y "height_knee - height_ankle"]);
  (k "A22", YList [y "height_neck_back_to_waist_side"; y "Height: Neck Back to Waist Side"; y ("Vertical distance from Neck Back to Waist Side." ++ " ('Height: Neck Back' - 'Height: Waist Side')."); y "height_neck_back - height_waist_side"]);
  (k "A23", YList [y "height_waist_back"; y "Height: Waist Back"; y ("Vertical height from Waist Back to floor." ++ " ('Height: Waist Front'' - 'Leg: Crotch to floor'')."); y "height_waist_front - leg_crotch_to_floor"])])]).
Definition topic_B : ykey * yvalue := (k "B", YMap [(k "description", y "Direct Width"); (k "measurements", YMap [
  (k "B01", YList [y "width_shoulder"; y "Width: Shoulder"; y "Horizontal distance from Shoulder Tip to Shoulder Tip."; YNum (0)%Z]);
  (k "B02", YList [y "width_bust"; y "Width: Bust"; y "Horizontal distance from Bust Side to Bust Side."; YNum (0)%Z]);
  (k "B03", YList [y "width_waist"; y "Width: Waist"; y "Horizontal distance from Waist Side to Waist Side."; YNum (0)%Z]);
  (k "B04", YList [y "width_hip"; y "Width: Hip"; y "Horizontal distance from Hip Side to Hip Side."; YNum (0)%Z]);
  (k "B05", YList [y "width_abdomen_to_hip"; y "Width: Abdomen to Hip"; y "Horizontal distance from the greatest abdomen prominence to the greatest hip prominence."; YNum (0)%Z])])]).
Definition topic_C : ykey * yvalue := (k "C", YMap [(k "description", y "Indentation"); (k "measurements", YMap [
  (k "C01", YList [y "indent_neck_back"; y "Indent: Neck Back"; y "Horizontal distance from Scapula (Blade point) to the Neck Back."; YNum (0)%Z]);
  (k "C02", YList [y "indent_waist_back"; y "Indent: Waist Back"; y "Horizontal distance between a flat stick, placed to touch Hip and Scapula, and Waist Back."; YNum (0)%Z]);
  (k "C03", YList [y "indent_ankle_high"; y "Indent: Ankle High"; y "Horizontal Distance between a flat stick, placed perpendicular to Heel, and the greatest indentation of Ankle."; YNum (0)%Z])])]).
Definition topic_D : ykey * yvalue := (k "D", YMap [(k "description", y "Circumference and Arc"); (k "measurements", YMap [
  (k "D01", YList [y "hand_palm_length"; y "Hand: Palm length"; y "Length from Wrist line to base of middle finger."; YNum (0)%Z]);
  (k "D02", YList [y "hand_length"; y "Hand: Length"; y "Length from Wrist line to end of middle finger."; YNum (0)%Z]);
  (k "D03", YList [y "hand_palm_width"; y "Hand: Palm width"; y "Measure where Palm is widest."; YNum (0)%Z]);
  (k "D04", YList [y "hand_palm_circ"; y "Hand: Palm circumference"; y "Circumference where Palm is widest."; YNum (0)%Z]);
  (k "D05", YList [y "hand_circ"; y "Hand: Circumference"; y ("Tuck thumb toward smallest finger, bring fingers close together." ++ " Measure circumference around widest part of hand."); YNum (0)%Z])])]).
Definition topic_E : ykey * yvalue := (k "E", YMap [(k "description", y "Vertical"); (k "measurements", YMap [
  (k "E01", YList [y "foot_width"; y "Foot: Width"; y "Measure at widest part of foot."; YNum (0)%Z]);
  (k "E02", YList [y "foot_length"; y "Foot: Length"; y "Measure from back of heel to end of longest toe."; YNum (0)%Z]);
  (k "E03", YList [y "foot_circ"; y "Foot: Circumference"; y "Measure circumference around widest part of foot."; YNum (0)%Z]);
  (k "E04", YList [y "foot_instep_circ"; y "Foot: Instep circumference"; y "Measure circumference at tallest part of instep."; YNum (0)%Z])])]).
Definition topic_F : ykey * yvalue := (k "F", YMap [(k "description", y "Horizontal"); (k "measurements", YMap [
  (k "F01", YList [y "head_circ"; y "Head: Circumference"; y "Measure circumference at largest level of head."; YNum (0)%Z]);
  (k "F02", YList [y "head_length"; y "Head: Length"; y "Vertical distance from Head Crown to bottom of jaw."; YNum (0)%Z]);
  (k "F03", YList [y "head_depth"; y "Head: Depth"; y "Horizontal distance from front of forehead to back of head."; YNum (0)%Z]);
  (k "F04", YList [y "head_width"; y "Head: Width"; y "Horizontal distance from Head Side to Head Side, where Head is widest."; YNum (0)%Z]);
  (k "F05", YList [y "head_crown_to_neck_back"; y "Head: Crown to Neck Back"; y ("Vertical distance from Crown to Neck Back." ++ " ('Height: Total' - 'Height: Neck Back')."); y "height - height_neck_back"]);
  (k "F06", YList [y "head_chin_to_neck_back"; y "Head: Chin to Neck Back"; y ("Vertical distance from Chin to Neck Back." ++ " ('Height' - 'Height: Neck Back' - 'Head: Length')"); y "height - height_neck_back - head_length"])])]).
Definition topic_G : ykey * yvalue := (k "G", YMap [(k "description", y "Bust"); (k "measurements", YMap [
  (k "G01", YList [y "neck_mid_circ"; y "Neck circumference, midsection"; y "Circumference of Neck midsection, about halfway between jaw and torso."; YNum (0)%Z]);
  (k "G02", YList [y "neck_circ"; y "Neck circumference"; y "Neck circumference at base of Neck, touching Neck Back, Neck Sides, and Neck Front."; YNum (0)%Z]);
  (k "G03", YList [y "highbust_circ"; y "Highbust circumference"; y "Circumference at Highbust, following shortest distance between Armfolds across chest, high under armpits."; YNum (0)%Z]);
  (k "G04", YList [y "bust_circ"; y "Bust circumference"; y "Circumference around Bust, parallel to floor."; YNum (0)%Z]);
  (k "G05", YList [y "lowbust_circ"; y "Lowbust circumference"; y "Circumference around LowBust under the breasts, parallel to floor."; YNum (0)%Z]);
  (k "G06", YList [y "rib_circ"; y "Rib circumference"; y "Circumference around Ribs at level of the lowest rib at the side, parallel to floor."; YNum (0)%Z]);
  (k "G07", YList [y "waist_circ"; y "Waist circumference"; y ("Circumference around Waist, following natural contours." ++ " Waists are  typically higher in back."); YNum (0)%Z]);
  (k "G08", YList [y "highhip_circ"; y "Highhip circumference"; y "Circumference around Highhip, where Abdomen protrusion is  greatest, parallel to floor."; YNum (0)%Z]);
  (k "G09", YList [y "hip_circ"; y "Hip circumference"; y "Circumference around Hip where Hip protrusion is greatest, parallel to floor."; YNum (0)%Z]);
  (k "G10", YList [y "neck_arc_f"; y "Neck arc, front"; y "From Neck Side to Neck Side through Neck Front."; YNum (0)%Z]);
  (k "G11", YList [y "highbust_arc_f"; y "Highbust arc, front"; y "From Highbust Side (Armpit) to HIghbust Side (Armpit) across chest."; YNum (0)%Z]);
  (k "G12", YList [y "size"; y "Size"; y "Same as bust_arc_f."; YNum (0)%Z]);
  (k "G13", YList [y "lowbust_arc_f"; y "Lowbust arc, front"; y "From Lowbust Side to Lowbust Side across front."; YNum (0)%Z]);
  (k "G14", YList [y "rib_arc_f"; y "Rib arc, front"; y "From Rib Side to Rib Side, across front."; YNum (0)%Z]);
  (k "G15", YList [y "waist_arc_f"; y "Waist arc, front"; y "From Waist Side to Waist Side across front."; YNum (0)%Z]);
  (k "G16", YList [y "highhip_arc_f"; y "Highhip arc, front"; y "From Highhip Side to Highhip Side across front."; YNum (0)%Z]);
  (k "G17", YList [y "hip_arc_f"; y "Hip arc, front"; y "From Hip Side to Hip Side across Front."; YNum (0)%Z]);
  (k "G18", YList [y "neck_arc_half_f"; y "Neck arc, front, half"; y ("Half of 'Neck arc, front'." ++ " ('Neck arc, front' / 2)."); y "neck_arc_f/2"]);
  (k "G19", YList [y "highbust_arc_half_f"; y "Highbust arc, front, half"; y ("Half of 'Highbust arc, front'." ++ " From Highbust Front to Highbust Side." ++ " ('Highbust arc,  front' / 2)."); y "highbust_arc_f/2"]);
  (k "G20", YList [y "bust_arc_half_f"; y "Bust arc, front, half"; y ("Half of 'Bust arc, front'." ++ " ('Bust arc, front'/2)."); y "bust_arc_f/2"]);
  (k "G21", YList [y "lowbust_arc_half_f"; y "Lowbust arc, front, half"; y ("Half of 'Lowbust arc, front'." ++ "  ('Lowbust Arc, front' / 2)."); y "lowbust_arc_f/2"]);
  (k "G22", YList [y "rib_arc_half_f"; y "Rib arc, front, half"; y ("Half of 'Rib arc, front'." ++ "   ('Rib Arc, front' / 2)."); y "rib_arc_f/2"]);
  (k "G23", YList [y "waist_arc_half_f"; y "Waist arc, front, half"; y ("Half of 'Waist arc, front'." ++ " ('Waist arc, front' / 2)."); y "waist_arc_f/2"]);
  (k "G24", YList [y "highhip_arc_half_f"; y "Highhip arc, front, half"; y ("Half of 'Highhip arc, front'." ++ "  ('Highhip arc, front' / 2)."); y "highhip_arc_f/2"]);
  (k "G25", YList [y "hip_arc_half_f"; y "Hip arc, front, half"; y ("Half of 'Hip arc, front'." ++ " ('Hip arc, front' / 2)."); y "hip_arc_f/2"]);
  (k "G26", YList [y "neck_arc_b"; y "Neck arc, back"; y ("From Neck Side to Neck Side across back." ++ " ('Neck circumference' - 'Neck arc, front')."); y "neck_circ - neck_arc_f"]);
  (k "G27", YList [y "highbust_arc_b"; y "Highbust arc, back"; y ("From Highbust Side  to Highbust Side across back." ++ " ('Highbust circumference' - 'Highbust arc, front')."); y "highbust_circ - highbust_arc_f"]);
  (k "G28", YList [y "bust_arc_b"; y "Bust arc, back"; y ("From Bust Side to Bust Side across back." ++ " ('Bust circumference' - 'Bust arc, front')."); y "bust_circ - bust_arc_f"]);
  (k "G29", YList [y "lowbust_arc_b"; y "Lowbust arc, back"; y ("From Lowbust Side to Lowbust Side across back." ++ "  ('Lowbust circumference' - 'Lowbust arc, front')."); y "lowbust_circ - lowbust_arc_f"]);
  (k "G30", YList [y "rib_arc_b"; y "Rib arc, back"; y ("From Rib Side to Rib side across back." ++ " ('Rib circumference' - 'Rib arc, front')."); y "rib_circ - rib_arc_f"]);
  (k "G31", YList [y "waist_arc_b"; y "Waist arc, back"; y ("From Waist Side to Waist Side across back." ++ " ('Waist circumference' - 'Waist arc, front')."); y "waist_circ - waist_arc_f"]);
  (k "G32", YList [y "highhip_arc_b"; y "Highhip arc, back"; y ("From Highhip Side to Highhip Side across back." ++ " ('Highhip circumference' - 'Highhip arc, front')."); y "highhip_circ - highhip_arc_f"]);
  (k "G33", YList [y "hip_arc_b"; y "Hip arc, back"; y ("From Hip Side to Hip Side across back." ++ " ('Hip circumference' - 'Hip arc, front')."); y "hip_circ - hip_arc_f"]);
  (k "G34", YList [y "neck_arc_half_b"; y "Neck arc, back, half"; y ("Half of 'Neck arc, back'." ++ " ('Neck arc, back' / 2)."); y "neck_arc_b/2"]);
  (k "G35", YList [y "highbust_arc_half_b"; y "Highbust arc, back, half"; y ("Half of 'Highbust arc, back'." ++ " From Highbust Back to Highbust Side." ++ " ('Highbust arc, back' / 2)."); y "highbust_arc_b/2"]);
  (k "G36", YList [y "bust_arc_half_b"; y "Bust arc, back, half"; y ("Half of 'Bust arc, back'." ++ " ('Bust arc, back' / 2)."); y "bust_arc_b/2"]);
  (k "G37", YList [y "lowbust_arc_half_b"; y "Lowbust arc, back, half"; y ("Half of 'Lowbust Arc, back'." ++ " ('Lowbust arc, back' / 2)."); y "lowbust_arc_b/2"]);
  (k "G38", YList [y "rib_arc_half_b"; y "Rib arc, back, half"; y ("Half of 'Rib arc, back'." ++ " ('Rib arc, back' / 2)."); y "rib_arc_b/2"]);
  (k "G39", YList [y "waist_arc_half_b"; y "Waist arc, back, half"; y ("Half of 'Waist arc, back'." ++ " ('Waist  arc, back' / 2)."); y "waist_arc_b/2"]);
  (k "G40", YList [y "highhip_arc_half_b"; y "Highhip arc, back, half"; y ("Half of 'Highhip arc, back'." ++ " From Highhip Back to Highbust Side." ++ " ('Highhip arc, back'/ 2)."); y "highhip_arc_b/2"]);
  (k "G41", YList [y "hip_arc_half_b"; y "Hip arc, back, half"; y ("Half of 'Hip arc, back'." ++ " ('Hip arc, back' / 2)."); y "hip_arc_b/2"]);
  (k "G42", YList [y "hip_with_abdomen_arc_f"; y "Hip arc with Abdomen, front"; y ("Curve stiff paper around front of abdomen, tape at sides." ++ " Measure from Hip Side to Hip Side overpaper across front."); YNum (0)%Z]);
  (k "G43", YList [y "body_armfold_circ"; y "Body circumference at Armfold level"; y "Measure around arms and torso at Armfold level."; YNum (0)%Z]);
  (k "G44", YList [y "body_bust_circ"; y "Body circumference at Bust level"; y "Measure around arms and torso at Bust level."; YNum (0)%Z]);
  (k "G45", YList [y "body_torso_circ"; y "Body circumference of full torso"; y "Circumference around torso from mid-shoulder around crotch back up to mid-shoulder."; YNum (0)%Z]);
  (k "G46", YList [y "hip_circ_with_abdomen"; y "Hip circumference, including Abdomen"; y ("Measurement at Hip level, including the depth of the Abdomen." ++ " (Hip arc, back + Hip arc withabdomen, front)."); y "hip_arc_b + hip_with_abdomen_arc_f"])])]).
Definition topic_H : ykey * yvalue := (k "H", YMap [(k "description", y "Balance"); (k "measurements", YMap [
  (k "H01", YList [y "neck_front_to_waist_f"; y "Neck Front to Waist Front"; y "From Neck Front, over tape between Breastpoints, down to Waist Front."; YNum (0)%Z]);
  (k "H02", YList [y "neck_front_to_waist_flat_f"; y "Neck Front to Waist Front flat"; y "From Neck Front down between breasts to Waist Front."; YNum (0)%Z]);
  (k "H03", YList [y "armpit_to_waist_side"; y "Armpit to Waist Side"; y "From Armpit down to Waist Side."; YNum (0)%Z]);
  (k "H04", YList [y "shoulder_tip_to_waist_side_f"; y "Shoulder Tip to Waist Side, front"; y "From Shoulder Tip, curving around Armscye Front, then down to Waist Side."; YNum (0)%Z]);
  (k "H05", YList [y "neck_side_to_waist_f"; y "Neck Side to Waist level, front"; y "From Neck Side straight down front to Waist level."; YNum (0)%Z]);
  (k "H06", YList [y "neck_side_to_waist_bustpoint_f"; y "Neck Side to Waist level, through Bustpoint"; y "From Neck Side over Bustpoint to Waist level, forming a straight line."; YNum (0)%Z]);
  (k "H07", YList [y "neck_front_to_highbust_f"; y "Neck Front to Highbust Front"; y "Neck Front down to Highbust Front."; YNum (0)%Z]);
  (k "H08", YList [y "highbust_to_waist_f"; y "Highbust Front to Waist Front"; y ("From Highbust Front to Waist Front." ++ " Use tape to bridge gap between Bustpoints." ++ " ('Neck Front toWaist Front' - 'Neck Front to Highbust Front')."); y "neck_front_to_waist_f - neck_front_to_highbust_f"]);
  (k "H09", YList [y "neck_front_to_bust_f"; y "Neck Front to Bust Front"; y ("From Neck Front down to Bust Front." ++ " Requires tape to cover gap between Bustpoints."); YNum (0)%Z]);
  (k "H10", YList [y "bust_to_waist_f"; y "Bust Front to Waist Front"; y ("From Bust Front down to Waist level." ++ " ('Neck Front to Waist Front' - 'Neck Front to Bust Front')."); y "neck_front_to_waist_f - neck_front_to_bust_f"]);
  (k "H11", YList [y "lowbust_to_waist_f"; y "Lowbust Front to Waist Front"; y "From Lowbust Front down to Waist Front."; YNum (0)%Z]);
  (k "H12", YList [y "rib_to_waist_side"; y "Rib Side to Waist Side"; y "From lowest rib at side down to Waist Side."; YNum (0)%Z]);
  (k "H13", YList [y "shoulder_tip_to_armfold_f"; y "Shoulder Tip to Armfold Front"; y "From Shoulder Tip around Armscye down to Armfold Front."; YNum (0)%Z]);
  (k "H14", YList [y "neck_side_to_bust_f"; y "Neck Side to Bust level, front"; y "From Neck Side straight down front to Bust level."; YNum (0)%Z]);
  (k "H15", YList [y "neck_side_to_highbust_f"; y "Neck Side to Highbust level, front"; y "From Neck Side straight down front to Highbust level."; YNum (0)%Z]);
  (k "H16", YList [y "shoulder_center_to_highbust_f"; y "Shoulder center to Highbust level, front"; y "From mid-Shoulder down front to Highbust level, aimed at Bustpoint."; YNum (0)%Z]);
  (k "H17", YList [y "shoulder_tip_to_waist_side_b"; y "Shoulder Tip to Waist Side, back"; y "From Shoulder Tip, curving around Armscye Back, then down to Waist Side."; YNum (0)%Z]);
  (k "H18", YList [y "neck_side_to_waist_b"; y "Neck Side to Waist level, back"; y "From Neck Side straight down back to Waist level."; YNum (0)%Z]);
  (k "H19", YList [y "neck_back_to_waist_b"; y "Neck Back to Waist Back"; y "From Neck Back down to Waist Back."; YNum (0)%Z]);
  (k "H20", YList [y "neck_side_to_waist_scapula_b"; y "Neck Side to Waist level, through Scapula"; y "From Neck Side across Scapula down to Waist level, forming a straight line."; YNum (0)%Z]);
  (k "H21", YList [y "neck_back_to_highbust_b"; y "Neck Back to Highbust Back"; y "From Neck Back down to Highbust Back."; YNum (0)%Z]);
  (k "H22", YList [y "highbust_to_waist_b"; y "Highbust Back to Waist Back"; y ("From Highbust Back down to Waist Back." ++ " ('Neck Back to Waist Back' - 'Neck Back to Highbust Back')."); y "neck_back_to_waist_b - neck_back_to_highbust_b"]);
  (k "H23", YList [y "neck_back_to_bust_b"; y "Neck Back to Bust Back"; y "From Neck Back down to Bust Back."; YNum (0)%Z]);
  (k "H24", YList [y "bust_to_waist_b"; y "Bust Back to Waist Back"; y ("From Bust Back down to Waist level." ++ " ('Neck Back to Waist Back' - 'Neck Back to Bust Back')."); y "neck_back_to_waist_b - neck_back_to_bust_b"]);
  (k "H25", YList [y "lowbust_to_waist_b"; y "Lowbust Back to Waist Back"; y "From Lowbust Back down to Waist Back."; YNum (0)%Z]);
  (k "H26", YList [y "shoulder_tip_to_armfold_b"; y "Shoulder Tip to Armfold Back"; y "From Shoulder Tip around Armscye down to Armfold Back."; YNum (0)%Z]);
  (k "H27", YList [y "neck_side_to_bust_b"; y "Neck Side to Bust level, back"; y "From Neck Side straight down back to Bust level."; YNum (0)%Z]);
  (k "H28", YList [y "neck_side_to_highbust_b"; y "Neck Side to Highbust level, back"; y "From Neck Side straight down back to Highbust level."; YNum (0)%Z]);
  (k "H29", YList [y "shoulder_center_to_highbust_b"; y "Shoulder center to Highbust level, back"; y "From mid-Shoulder down back to Highbust level, aimed through Scapula."; YNum (0)%Z]);
  (k "H30", YList [y "waist_to_highhip_f"; y "Waist Front to Highhip Front"; y "From Waist Front to Highhip Front."; YNum (0)%Z]);
  (k "H31", YList [y "waist_to_hip_f"; y "Waist Front to Hip Front"; y "From Waist Front to Hip Front."; YNum (0)%Z]);
  (k "H32", YList [y "waist_to_highhip_side"; y "Waist Side to Highhip Side"; y "From Waist Side to Highhip Side."; YNum (0)%Z]);
  (k "H33", YList [y "waist_to_highhip_b"; y "Waist Back to Highhip Back"; y "From Waist Back down to Highhip Back."; YNum (0)%Z]);
  (k "H34", YList [y "waist_to_hip_b"; y "Waist Back to Hip Back"; y ("From Waist Back down to Hip Back." ++ " Requires tape to cover the gap between buttocks."); YNum (0)%Z]);
  (k "H35", YList [y "waist_to_hip_side"; y "Waist Side to Hip Side"; y "From Waist Side to Hip Side."; YNum (0)%Z]);
  (k "H36", YList [y "shoulder_slope_neck_side_angle"; y "Shoulder Slope Angle from Neck Side"; y "Angle formed by line from Neck Side to Shoulder Tip and line from Neck Side parallel to floor."; YNum (0)%Z]);
  (k "H37", YList [y "shoulder_slope_neck_side_length"; y "Shoulder Slope length from Neck Side"; y "Vertical distance between Neck Side and Shoulder Tip."; YNum (0)%Z]);
  (k "H38", YList [y "shoulder_slope_neck_back_angle"; y "Shoulder Slope Angle from Neck Back"; y "Angle formed by  line from Neck Back to Shoulder Tip and line from Neck Back parallel to floor."; YNum (0)%Z]);
  (k "H39", YList [y "shoulder_slope_neck_back_height"; y "Shoulder Slope length from Neck Back"; y "Vertical distance between Neck Back and Shoulder Tip."; YNum (0)%Z]);
  (k "H40", YList [y "shoulder_slope_shoulder_tip_angle"; y "Shoulder Slope Angle from Shoulder Tip"; y "Angle formed by line from Neck Side to Shoulder Tip and vertical line at Shoulder Tip."; YNum (0)%Z]);
  (k "H41", YList [y "neck_back_to_across_back"; y "Neck Back to Across Back"; y "From neck back, down to level of Across Back measurement."; YNum (0)%Z]);
  (k "H42", YList [y "across_back_to_waist_b"; y "Across Back to Waist back"; y "From middle of Across Back down to Waist back."; y "neck_back_to_waist_b - neck_back_to_across_back"])])]).
Definition topic_I : ykey * yvalue := (k "I", YMap [(k "description", y "Arm"); (k "measurements", YMap [
  (k "I01", YList [y "shoulder_length"; y "Shoulder length"; y "From Neck Side to Shoulder Tip."; YNum (0)%Z]);
  (k "I02", YList [y "shoulder_tip_to_shoulder_tip_f"; y "Shoulder Tip to Shoulder Tip, front"; y "From Shoulder Tip to Shoulder Tip, across front."; YNum (0)%Z]);
  (k "I03", YList [y "across_chest_f"; y "Across Chest"; y "From Armscye to Armscye at narrowest width across chest."; YNum (0)%Z]);
  (k "I04", YList [y "armfold_to_armfold_f"; y "Armfold to Armfold, front"; y "From Armfold to Armfold, shortest distance between Armfolds, not parallel to floor."; YNum (0)%Z]);
  (k "I05", YList [y "shoulder_tip_to_shoulder_tip_half_f"; y "Shoulder Tip to Shoulder Tip, front, half"; y ("Half of' Shoulder Tip to Shoulder tip, front'." ++ " ('Shoulder Tip to Shoulder Tip, front' / 2)."); y "shoulder_tip_to_shoulder_tip_f/2"]);
  (k "I06", YList [y "across_chest_half_f"; y "Across Chest, half"; y ("Half of 'Across Chest'." ++ " ('Across Chest' / 2)."); y "across_chest_f/2"]);
  (k "I07", YList [y "shoulder_tip_to_shoulder_tip_b"; y "Shoulder Tip to Shoulder Tip, back"; y "From Shoulder Tip to Shoulder Tip, across the back."; YNum (0)%Z]);
  (k "I08", YList [y "across_back_b"; y "Across Back"; y "From Armscye to Armscye at the narrowest width of the back."; YNum (0)%Z]);
  (k "I09", YList [y "armfold_to_armfold_b"; y "Armfold to Armfold, back"; y "From Armfold to Armfold across the back."; YNum (0)%Z]);
  (k "I10", YList [y "shoulder_tip_to_shoulder_tip_half_b"; y "Shoulder Tip to Shoulder Tip, back, half"; y ("Half of 'Shoulder Tip to Shoulder Tip, back'." ++ " ('Shoulder Tip to Shoulder Tip,  back' / 2)."); y "shoulder_tip_to_shoulder_tip_b/2"]);
  (k "I11", YList [y "across_back_half_b"; y "Across Back, half"; y ("Half of 'Across Back'." ++ " ('Across Back' / 2)."); y "across_back_b/2"]);
  (k "I12", YList [y "neck_front_to_shoulder_tip_f"; y "Neck Front to Shoulder Tip"; y "From Neck Front to Shoulder Tip."; YNum (0)%Z]);
  (k "I13", YList [y "neck_back_to_shoulder_tip_b"; y "Neck Back to Shoulder Tip"; y "From Neck Back to Shoulder Tip."; YNum (0)%Z]);
  (k "I14", YList [y "neck_width"; y "Neck Width"; y "Measure between the 'legs' of an unclosed necklace or chain draped around the neck."; YNum (0)%Z])])]).
Definition topic_J : ykey * yvalue := (k "J", YMap [(k "description", y "Leg"); (k "measurements", YMap [
  (k "J01", YList [y "bustpoint_to_bustpoint"; y "Bustpoint to Bustpoint"; y "From Bustpoint to Bustpoint."; YNum (0)%Z]);
  (k "J02", YList [y "bustpoint_to_neck_side"; y "Bustpoint to Neck Side"; y "From Neck Side to Bustpoint."; YNum (0)%Z]);
  (k "J03", YList [y "bustpoint_to_lowbust"; y "Bustpoint to Lowbust"; y "From Bustpoint down to Lowbust level, following curve of bust or chest."; YNum (0)%Z]);
  (k "J04", YList [y "bustpoint_to_waist"; y "Bustpoint to Waist level"; y "From Bustpoint to straight down to Waist level, forming a straight line (not curving along thebody)."; YNum (0)%Z]);
  (k "J05", YList [y "bustpoint_to_bustpoint_half"; y "Bustpoint to Bustpoint, half"; y ("Half of 'Bustpoint to Bustpoint'." ++ " ('Bustpoint to Bustpoint' / 2)."); y "bustpoint_to_bustpoint/2"]);
  (k "J06", YList [y "bustpoint_neck_side_to_waist"; y "Bustpoint, Neck Side to Waist level"; y ("From Neck Side to Bustpoint, then straight down to Waist level." ++ " ('Neck Side to Bustpoint' +'Bustpoint to Waist level')."); y "bustpoint_to_neck_side + bustpoint_to_waist"]);
  (k "J07", YList [y "bustpoint_to_shoulder_tip"; y "Bustpoint to Shoulder Tip"; y "From Bustpoint to Shoulder tip."; YNum (0)%Z]);
  (k "J08", YList [y "bustpoint_to_waist_front"; y "Bustpoint to Waist Front"; y "From Bustpoint to Waist Front, in a straight line, not following the curves of the body."; YNum (0)%Z]);
  (k "J09", YList [y "bustpoint_to_bustpoint_halter"; y "Bustpoint to Bustpoint Halter"; y "From Bustpoint around Neck Back down to other Bustpoint."; YNum (0)%Z]);
  (k "J10", YList [y "bustpoint_to_shoulder_center"; y "Bustpoint to Shoulder Center"; y "From center of Shoulder to Bustpoint."; YNum (0)%Z])])]).
Definition topic_K : ykey * yvalue := (k "K", YMap [(k "description", y "Crotch and Rise"); (k "measurements", YMap [
  (k "K01", YList [y "shoulder_tip_to_waist_front"; y "Shoulder Tip to Waist Front"; y "From Shoulder Tip diagonal to Waist Front."; YNum (0)%Z]);
  (k "K02", YList [y "neck_front_to_waist_side"; y "Neck Front to Waist Side"; y "From Neck Front diagonal to Waist Side."; YNum (0)%Z]);
  (k "K03", YList [y "neck_side_to_waist_side_f"; y "Neck Side to Waist Side, front"; y "From Neck Side diagonal across front to Waist Side."; YNum (0)%Z]);
  (k "K04", YList [y "shoulder_tip_to_waist_back"; y "Shoulder Tip to Waist Back"; y "From Shoulder Tip diagonal to Waist Back."; YNum (0)%Z]);
  (k "K05", YList [y "shoulder_tip_to_waist_b_1in_offset"; y "Shoulder Tip to Waist Back, with 1in (2.54cm) offset"; y ("Mark 1in (2.54cm) outward from Waist Back along Waist level." ++ " Measure from Shoulder Tip diagonal to mark."); YNum (0)%Z]);
  (k "K06", YList [y "neck_back_to_waist_side"; y "Neck Back to Waist Side"; y "From Neck Back diagonal across back to Waist Side."; YNum (0)%Z]);
  (k "K07", YList [y "neck_side_to_waist_side_b"; y "Neck Side to Waist Side, back"; y "From Neck Side diagonal across back to Waist Side."; YNum (0)%Z]);
  (k "K08", YList [y "neck_side_to_armfold_f"; y "Neck Side to Armfold Front"; y "From Neck Side diagonal to Armfold Front."; YNum (0)%Z]);
  (k "K09", YList [y "neck_side_to_armpit_f"; y "Neck Side to Highbust Side, front"; y "From Neck Side diagonal across front to Highbust Side (Armpit)."; YNum (0)%Z]);
  (k "K10", YList [y "neck_side_to_bust_side_f"; y "Neck Side to Bust Side, front"; y "Neck Side diagonal across front to Bust Side."; YNum (0)%Z]);
  (k "K11", YList [y "neck_side_to_armfold_b"; y "Neck Side to Armfold Back"; y "From Neck Side diagonal to Armfold Back."; YNum (0)%Z]);
  (k "K12", YList [y "neck_side_to_armpit_b"; y "Neck Side to Highbust Side, back"; y "From Neck Side diagonal across back to Highbust Side (Armpit)."; YNum (0)%Z]);
  (k "K13", YList [y "neck_side_to_bust_side_b"; y "Neck Side to Bust Side, back"; y "Neck Side diagonal across back to Bust Side."; YNum (0)%Z])])]).
Definition topic_L : ykey * yvalue := (k "L", YMap [(k "description", y "Hand"); (k "measurements", YMap [
  (k "L01", YList [y "arm_shoulder_tip_to_wrist_bent"; y "Arm: Shoulder Tip to Wrist, bent"; y "Bend Arm, measure from Shoulder Tip around Elbow to radial Wrist bone."; YNum (0)%Z]);
  (k "L02", YList [y "arm_shoulder_tip_to_elbow_bent"; y "Arm: Shoulder Tip to Elbow, bent"; y "Bend Arm, measure from Shoulder Tip to Elbow Tip."; YNum (0)%Z]);
  (k "L03", YList [y "arm_elbow_to_wrist_bent"; y "Arm: Elbow to Wrist, bent"; y ("Elbow tip to wrist." ++ " ('Arm: Shoulder Tip to Wrist, bent' - 'Arm: Shoulder Tip to Elbow, bent')."); y "arm_shoulder_tip_to_wrist_bent - arm_shoulder_tip_to_elbow_bent"]);
  (k "L04", YList [y "arm_elbow_circ_bent"; y "Arm: Elbow circumference, bent"; y "Elbow circumference, arm is bent."; YNum (0)%Z]);
  (k "L05", YList [y "arm_shoulder_tip_to_wrist"; y "Arm: Shoulder Tip to Wrist"; y "From Shoulder Tip to Wrist bone, arm straight."; YNum (0)%Z]);
  (k "L06", YList [y "arm_shoulder_tip_to_elbow"; y "Arm: Shoulder Tip to Elbow"; y "From Shoulder tip to Elbow Tip, arm straight."; YNum (0)%Z]);
  (k "L07", YList [y "arm_elbow_to_wrist"; y "Arm: Elbow to Wrist"; y ("From Elbow to Wrist, arm straight." ++ " ('Arm: Shoulder Tip to Wrist' - 'Arm: Shoulder Tip to Elbow')."); y "arm_shoulder_tip_to_wrist - arm_shoulder_tip_to_elbow"]);
  (k "L08", YList [y "arm_armpit_to_wrist"; y "Arm: Armpit to Wrist, inside"; y "From Armpit to ulna Wrist bone, arm straight."; YNum (0)%Z]);
  (k "L09", YList [y "arm_armpit_to_elbow"; y "Arm: Armpit to Elbow, inside"; y "From Armpit to inner Elbow, arm straight."; YNum (0)%Z]);
  (k "L10", YList [y "arm_elbow_to_wrist_inside"; y "Arm: Elbow to Wrist, inside"; y ("From inside Elbow to Wrist." ++ " ('Arm: Armpit to Wrist, inside' - 'Arm: Armpit to Elbow, inside')."); y "arm_armpit_to_wrist - arm_armpit_to_elbow"]);
  (k "L11", YList [y "arm_upper_circ"; y "Arm: Upper Arm circumference"; y "Arm circumference at Armpit level."; YNum (0)%Z]);
  (k "L12", YList [y "arm_above_elbow_circ"; y "Arm: Above Elbow circumference"; y "Arm circumference at Bicep level."; YNum (0)%Z]);
  (k "L13", YList [y "arm_elbow_circ"; y "Arm: Elbow circumference"; y "Elbow circumference, arm straight."; YNum (0)%Z]);
  (k "L14", YList [y "arm_lower_circ"; y "Arm: Lower Arm circumference"; y "Arm circumference where lower arm is widest."; YNum (0)%Z]);
  (k "L15", YList [y "arm_wrist_circ"; y "Arm: Wrist circumference"; y "Wrist circumference."; YNum (0)%Z]);
  (k "L16", YList [y "arm_shoulder_tip_to_armfold_line"; y "Arm: Shoulder Tip to Armfold line"; y "From Shoulder Tip down to Armpit level."; YNum (0)%Z]);
  (k "L17", YList [y "arm_neck_side_to_wrist"; y "Arm: Neck Side to Wrist"; y ("From Neck Side to Wrist." ++ " ('Shoulder Length' + 'Arm: Shoulder Tip to Wrist')."); y "shoulder_length + arm_shoulder_tip_to_wrist"]);
  (k "L18", YList [y "arm_neck_side_to_finger_tip"; y "Arm: Neck Side to Finger Tip"; y ("From Neck Side down arm to tip of middle finger." ++ " ('Shoulder Length' + 'Arm: Shoulder Tip toWrist' + 'Hand: Length')."); y "shoulder_length + arm_shoulder_tip_to_wrist + hand_length"]);
  (k "L19", YList [y "armscye_circ"; y "Armscye: Circumference"; y ("Let arm hang at side." ++ " Measure Armscye circumference through Shoulder Tip and Armpit."); YNum (0)%Z]);
  (k "L20", YList [y "armscye_length"; y "Armscye: Length"; y "Vertical distance from Shoulder Tip to Armpit."; YNum (0)%Z]);
  (k "L21", YList [y "armscye_width"; y "Armscye: Width"; y "Horizontal distance between Armscye Front and Armscye Back."; YNum (0)%Z]);
  (k "L22", YList [y "arm_neck_side_to_outer_elbow"; y "Arm: Neck side to Elbow"; y ("From Neck Side over Shoulder Tip down to Elbow." ++ " (Shoulder length + Arm: Shoulder Tip to Elbow)."); y "shoulder_length + arm_shoulder_tip_to_elbow"])])]).
Definition topic_M : ykey * yvalue := (k "M", YMap [(k "description", y "Foot"); (k "measurements", YMap [
  (k "M01", YList [y "leg_crotch_to_floor"; y "Leg: Crotch to floor"; y ("Stand feet close together." ++ " Measure from crotch level (touching body, no extra space) down to floor."); YNum (0)%Z]);
  (k "M02", YList [y "leg_waist_side_to_floor"; y "Leg: Waist Side to floor"; y "From Waist Side along curve to Hip level then straight down to floor."; YNum (0)%Z]);
  (k "M03", YList [y "leg_thigh_upper_circ"; y "Leg: Thigh Upper circumference"; y "Thigh circumference at the fullest part of the upper Thigh near the Crotch."; YNum (0)%Z]);
  (k "M04", YList [y "leg_thigh_mid_circ"; y "Leg: Thigh Middle circumference"; y "Thigh circumference about halfway between Crotch and Knee."; YNum (0)%Z]);
  (k "M05", YList [y "leg_knee_circ"; y "Leg: Knee circumference"; y "Knee circumference with straight leg."; YNum (0)%Z]);
  (k "M06", YList [y "leg_knee_small_circ"; y "Leg: Knee Small circumference"; y "Leg circumference just below the knee."; YNum (0)%Z]);
  (k "M07", YList [y "leg_calf_circ"; y "Leg: Calf circumference"; y "Calf circumference at the largest part of lower leg."; YNum (0)%Z]);
  (k "M08", YList [y "leg_ankle_high_circ"; y "Leg: Ankle High circumference"; y "Ankle circumference where the indentation at the back of the ankle is the deepest."; YNum (0)%Z]);
  (k "M09", YList [y "leg_ankle_circ"; y "Leg: Ankle circumference"; y "Ankle circumference where front of leg meets the top of the foot."; YNum (0)%Z]);
  (k "M10", YList [y "leg_knee_circ_bent"; y "Leg: Knee circumference, bent"; y "Knee circumference with leg bent."; YNum (0)%Z]);
  (k "M11", YList [y "leg_ankle_diag_circ"; y "Leg: Ankle diagonal circumference"; y "Ankle circumference diagonal from top of foot to bottom of heel."; YNum (0)%Z]);
  (k "M12", YList [y "leg_crotch_to_ankle"; y "Leg: Crotch to Ankle"; y ("From Crotch to Ankle." ++ " ('Leg: Crotch to Floor' - 'Height: Ankle')."); y "leg_crotch_to_floor - height_ankle"]);
  (k "M13", YList [y "leg_waist_side_to_ankle"; y "Leg: Waist Side to Ankle"; y ("From Waist Side to Ankle." ++ " ('Leg: Waist Side to Floor' - 'Height: Ankle')."); y "leg_waist_side_to_floor - height_ankle"]);
  (k "M14", YList [y "leg_waist_side_to_knee"; y "Leg: Waist Side to Knee"; y ("From Waist Side along curve to Hip level then straight down to  Knee level." ++ " ('Leg: Waist Side toFloor' - 'Height Knee')."); y "leg_waist_side_to_floor - height_knee"])])]).
Definition topic_N : ykey * yvalue := (k "N", YMap [(k "description", y "Head"); (k "measurements", YMap [
  (k "N01", YList [y "crotch_length"; y "Crotch length"; y ("Put tape across gap between buttocks at Hip level." ++ " Measure from Waist Front down betwen legs and up to Waist Back."); YNum (0)%Z]);
  (k "N02", YList [y "crotch_length_b"; y "Crotch length, back"; y ("Put tape across gap between buttocks at Hip level." ++ " Measure from Waist Back to mid-Crotch, either at the vagina or between testicles and anus)."); YNum (0)%Z]);
  (k "N03", YList [y "crotch_length_f"; y "Crotch length, front"; y ("From Waist Front to start of vagina or end of testicles." ++ " ('Crotch length' - 'Crotch length, back')."); y "crotch_length - crotch_length_b"]);
  (k "N04", YList [y "rise_length_side_sitting"; y ""; y "From Waist Side around hip curve down to surface, while seated on hard surface."; YNum (0)%Z]);
  (k "N05", YList [y "rise_length_diag"; y "Rise length, diagonal"; y "Measure from Waist Side diagonally to a string tied at the top of the leg, seated on a hard surface."; YNum (0)%Z]);
  (k "N06", YList [y "rise_length_b"; y "Rise length, back"; y ("Vertical distance from Waist Back to Crotch level." ++ " ('Height: Waist Back' - 'Leg: Crotch to Floor')"); y "height_waist_back - leg_crotch_to_floor"]);
  (k "N07", YList [y "rise_length_f"; y "Rise length, front"; y ("Vertical Distance from Waist Front to Crotch level." ++ " ('Height: Waist Front' - 'Leg: Crotch to Floor')"); y "height_waist_front - leg_crotch_to_floor"]);
  (k "N08", YList [y "rise_length_side"; y "Rise length, side"; y ("Vertical distance from Waist side down to Crotch level." ++ " Use formula (Height: Waist side - Leg: Crotch to floor)."); YNum (0)%Z])])]).
Definition topic_O : ykey * yvalue := (k "O", YMap [(k "description", y "Men & Tailoring"); (k "measurements", YMap [
  (k "O01", YList [y "neck_back_to_waist_front"; y "Neck Back to Waist Front"; y "From Neck Back around Neck Side down to Waist Front."; YNum (0)%Z]);
  (k "O02", YList [y "waist_to_waist_halter"; y "Waist to Waist Halter, around Neck Back"; y "From Waist level around Neck Back to Waist level."; YNum (0)%Z]);
  (k "O03", YList [y "waist_natural_circ"; y "Natural Waist circumference"; y "Torso circumference at men's natural side Abdominal Obliques indentation, if Oblique indentation isn't found then just below the Navel level."; YNum (0)%Z]);
  (k "O04", YList [y "waist_natural_arc_f"; y "Natural Waist arc, front"; y "From Side to Side at the Natural Waist level, across the front."; YNum (0)%Z]);
  (k "O05", YList [y "waist_natural_arc_b"; y "Natural Waist arc, back"; y ("From Side to Side at Natural Waist level, across the back." ++ " Calculate as ( Natural Waist circumference  - Natural Waist arc (front) )."); y "waist_natural_circ - waist_natural_arc_f"]);
  (k "O06", YList [y "waist_to_natural_waist_f"; y "Waist Front to Natural Waist Front"; y "Length from Waist Front to Natural Waist Front."; YNum (0)%Z]);
  (k "O07", YList [y "waist_to_natural_waist_b"; y "Waist Back to Natural Waist Back"; y "Length from Waist Back to Natural Waist Back."; YNum (0)%Z]);
  (k "O08", YList [y "arm_neck_back_to_elbow_bent"; y "Arm: Neck Back to Elbow, high bend"; y ("Bend Arm with Elbow out, hand in front." ++ " Measure from Neck Back to Elbow Tip."); YNum (0)%Z]);
  (k "O09", YList [y "arm_neck_back_to_wrist_bent"; y "Arm: Neck Back to Wrist, high bend"; y ("Bend Arm with Elbow out, hand in front." ++ " Measure from Neck Back to Elbow Tip to Wrist bone."); YNum (0)%Z]);
  (k "O10", YList [y "arm_neck_side_to_elbow_bent"; y "Arm: Neck Side to Elbow, high bend"; y ("Bend Arm with Elbow out, hand in front." ++ " Measure from Neck Side to Elbow Tip."); YNum (0)%Z]);
  (k "O11", YList [y "arm_neck_side_to_wrist_bent"; y "Arm: Neck Side to Wrist, high bend"; y ("Bend Arm with Elbow out, hand in front." ++ " Measure from Neck Side to Elbow Tip to Wrist bone."); YNum (0)%Z]);
  (k "O12", YList [y "arm_across_back_center_to_elbow_bent"; y "Arm: Across Back Center to Elbow, high bend"; y ("Bend Arm with Elbow out, hand in front." ++ " Measure from Middle of Back to Elbow Tip."); YNum (0)%Z]);
  (k "O13", YList [y "arm_across_back_center_to_wrist_bent"; y "Arm: Across Back Center to Wrist, high bend"; y ("Bend Arm with Elbow out, hand in front." ++ " Measure from Middle of Back to Elbow Tip to Wrist bone."); YNum (0)%Z]);
  (k "O14", YList [y "arm_armscye_back_center_to_wrist_bent"; y "Arm: Armscye Back Center to Wrist, high bend"; y ("Bend Arm with Elbow out, hand in front." ++ " Measure from Armscye Back to Elbow Tip."); YNum (0)%Z])])]).
Definition topic_P : ykey * yvalue := (k "P", YMap [(k "description", y "Historical & Specialty"); (k "measurements", YMap [
  (k "P01", YList [y "neck_back_to_bust_front"; y "Neck Back to Bust Front"; y "From Neck Back, over Shoulder, to Bust Front."; YNum (0)%Z]);
  (k "P02", YList [y "neck_back_to_armfold_front"; y "Neck Back to Armfold Front"; y "From Neck Back over Shoulder to Armfold Front."; YNum (0)%Z]);
  (k "P03", YList [y "neck_back_to_armfold_front_to_waist_side"; y "Neck Back, over Shoulder, to Waist Side"; y "From Neck Back, over Shoulder, down chest to Waist Side."; YNum (0)%Z]);
  (k "P04", YList [y "highbust_back_over_shoulder_to_armfold_front"; y "Highbust Back, over Shoulder, to Armfold Front"; y "From Highbust Back over Shoulder to Armfold Front."; YNum (0)%Z]);
  (k "P05", YList [y "highbust_back_over_shoulder_to_waist_front"; y "Highbust Back, over Shoulder, to Waist Front"; y "From Highbust Back, over Shoulder touching  Neck Side, to Waist Front."; YNum (0)%Z]);
  (k "P06", YList [y "neck_back_to_armfold_front_to_neck_back"; y "Neck Back, to Armfold Front, to Neck Back"; y "From Neck Back, over Shoulder to Armfold Front, under arm and return to start."; YNum (0)%Z]);
  (k "P07", YList [y "across_back_center_to_armfold_front_to_across_back_center"; y "Across Back Center, circled around Shoulder"; y "From center of Across Back, over Shoulder, under Arm, and return to start."; YNum (0)%Z]);
  (k "P08", YList [y "neck_back_to_armfold_front_to_highbust_back"; y "Neck Back, to Armfold Front, to Highbust Back"; y "From Neck Back over Shoulder to Armfold Front, under arm to Highbust Back."; YNum (0)%Z]);
  (k "P09", YList [y "armfold_to_armfold_bust"; y "Armfold to Armfold, front, curved through Bust Front"; y "Measure in a curve from Armfold Left Front through Bust Front curved back up to Armfold Right Front."; YNum (0)%Z]);
  (k "P10", YList [y "armfold_to_bust_front"; y "Armfold to Bust Front"; y "Measure from Armfold Front to Bust Front, shortest distance between the two, as straight as possible."; YNum (0)%Z]);
  (k "P11", YList [y "highbust_b_over_shoulder_to_highbust_f"; y "Highbust Back, over Shoulder, to Highbust level"; y "From Highbust Back, over Shoulder, then aim at Bustpoint, stopping measurement at Highbust level."; YNum (0)%Z]);
  (k "P12", YList [y "armscye_arc"; y "Armscye: Arc"; y "From Armscye at Across Chest over ShoulderTip  to Armscye at Across Back."; YNum (0)%Z])])]).
Definition topic_Q : ykey * yvalue := (k "Q", YMap [(k "description", y "Patternmaking measurements"); (k "measurements", YMap [
  (k "Q01", YList [y "dart_width_shoulder"; y "Dart Width: Shoulder"; y ("This information is pulled from pattern charts in some patternmaking systems, e.g." ++ " Winifred P.Aldrich's ""Metric Pattern Cutting""."); YNum (0)%Z]);
  (k "Q02", YList [y "dart_width_bust"; y "Dart Width: Bust"; y ("This information is pulled from pattern charts in some patternmaking systems, e.g." ++ " Winifred P.Aldrich's ""Metric Pattern Cutting""."); YNum (0)%Z]);
  (k "Q03", YList [y "dart_width_waist"; y "Dart Width: Waist"; y ("This information is pulled from pattern charts in some  patternmaking systems, e.g." ++ " Winifred P.Aldrich's ""Metric Pattern Cutting""."); YNum (0)%Z])])]).
Definition standard_file : yvalue := YMap [topic_A; topic_B; topic_C; topic_D; topic_E; topic_F; topic_G; topic_H; topic_I; topic_J; topic_K; topic_L; topic_M; topic_N; topic_O; topic_P; topic_Q].

Definition fiber_file : yvalue := YMap [
  (k "Natural Fibres", YMap [(k "Plant Fibres", YMap [(k "Cotton", YMap [(k "source", y "cotton")]); (k "Linen", YMap [(k "source", y "flax")])]); (k "Animal Fibres", YMap [(k "Alpaca", YMap [(k "source", y "alpaca")]); (k "Angora", YMap [(k "source", y "angora rabbit")]); (k "Cashmere", YMap [(k "source", y "cashmere goat")]); (k "Llama", YMap [(k "source", y "llama")]); (k "Mohair", YMap [(k "source", y "angora goat")]); (k "Silk", YMap [(k "source", y "silkworm (bombyx mori)")]); (k "Whool", YMap [(k "source", y "sheep")])])]);
  (k "Synthetic Fibres", YMap [(k "Acetate", YNull); (k "Acrylic", YNull); (k "Aramids", YMap [(k "comment", y "known as Nomex, Kevlar and Twaron")]); (k "Derclon", YNull); (k "Dyneema", YMap [(k "source", y "Ultra-high-molecular-weight polyethylene (UHMWPE)")]); (k "Lyocell", YNull); (k "M-5", YNull); (k "Microfibers", YNull); (k "Modacrylic", YNull); (k "Modal", YNull); (k "Nylon", YNull); (k "Olefin", YNull); (k "Orlon", YNull); (k "PLA", YNull); (k "Polybenzimidazole", YNull); (k "Polyester", YNull); (k "Polyolefin", YNull); (k "Polypropylene", YNull); (k "Rayon", YMap [(k "comment", y "artificial silk")]); (k "Saran", YMap [(k "alias", YList [y "lycra"; y "elastane"]); (k "source", y "polyether-polyurea copolymer")]); (k "Spandex", YNull); (k "Sulfar", YNull); (k "Triacetate", YNull); (k "Vectran", YNull); (k "Vinalon", YNull); (k "Vinyon", YNull); (k "Zylon", YNull)])].
