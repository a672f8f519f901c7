(** Model of /repo/src/api/view.rs. *)
From Verif Require Import Base Dec Flt Json M_Color M_View.

(** ** Assignments [view.f = v] and [view.g.f = v] to fields of a raw view *)
Definition set_av_ad_size (v : str) (x : android_view) : android_view :=
  {| av_ad_size := v; av_ad_unit_id := av_ad_unit_id x; av_alpha := av_alpha x; av_checked := av_checked x; av_choice_mode := av_choice_mode x; av_clickable := av_clickable x; av_custom_view := av_custom_view x; av_divider_height := av_divider_height x; av_enabled := av_enabled x; av_first_day_of_week := av_first_day_of_week x; av_id := av_id x; av_image := av_image x; av_indeterminate := av_indeterminate x; av_index := av_index x; av_layout := av_layout x; av_max := av_max x; av_parent := av_parent x; av_parent_type := av_parent_type x; av_pre_id := av_pre_id x; av_pre_index := av_pre_index x; av_pre_parent := av_pre_parent x; av_pre_parent_type := av_pre_parent_type x; av_progress := av_progress x; av_progress_style := av_progress_style x; av_scale_x := av_scale_x x; av_scale_y := av_scale_y x; av_spinner_mode := av_spinner_mode x; av_text := av_text x; av_translation_x := av_translation_x x; av_translation_y := av_translation_y x; av_type := av_type x |}.
Definition set_av_checked (v : bool) (x : android_view) : android_view :=
  {| av_ad_size := av_ad_size x; av_ad_unit_id := av_ad_unit_id x; av_alpha := av_alpha x; av_checked := v; av_choice_mode := av_choice_mode x; av_clickable := av_clickable x; av_custom_view := av_custom_view x; av_divider_height := av_divider_height x; av_enabled := av_enabled x; av_first_day_of_week := av_first_day_of_week x; av_id := av_id x; av_image := av_image x; av_indeterminate := av_indeterminate x; av_index := av_index x; av_layout := av_layout x; av_max := av_max x; av_parent := av_parent x; av_parent_type := av_parent_type x; av_pre_id := av_pre_id x; av_pre_index := av_pre_index x; av_pre_parent := av_pre_parent x; av_pre_parent_type := av_pre_parent_type x; av_progress := av_progress x; av_progress_style := av_progress_style x; av_scale_x := av_scale_x x; av_scale_y := av_scale_y x; av_spinner_mode := av_spinner_mode x; av_text := av_text x; av_translation_x := av_translation_x x; av_translation_y := av_translation_y x; av_type := av_type x |}.
Definition set_av_custom_view (v : str) (x : android_view) : android_view :=
  {| av_ad_size := av_ad_size x; av_ad_unit_id := av_ad_unit_id x; av_alpha := av_alpha x; av_checked := av_checked x; av_choice_mode := av_choice_mode x; av_clickable := av_clickable x; av_custom_view := v; av_divider_height := av_divider_height x; av_enabled := av_enabled x; av_first_day_of_week := av_first_day_of_week x; av_id := av_id x; av_image := av_image x; av_indeterminate := av_indeterminate x; av_index := av_index x; av_layout := av_layout x; av_max := av_max x; av_parent := av_parent x; av_parent_type := av_parent_type x; av_pre_id := av_pre_id x; av_pre_index := av_pre_index x; av_pre_parent := av_pre_parent x; av_pre_parent_type := av_pre_parent_type x; av_progress := av_progress x; av_progress_style := av_progress_style x; av_scale_x := av_scale_x x; av_scale_y := av_scale_y x; av_spinner_mode := av_spinner_mode x; av_text := av_text x; av_translation_x := av_translation_x x; av_translation_y := av_translation_y x; av_type := av_type x |}.
Definition set_av_divider_height (v : N) (x : android_view) : android_view :=
  {| av_ad_size := av_ad_size x; av_ad_unit_id := av_ad_unit_id x; av_alpha := av_alpha x; av_checked := av_checked x; av_choice_mode := av_choice_mode x; av_clickable := av_clickable x; av_custom_view := av_custom_view x; av_divider_height := v; av_enabled := av_enabled x; av_first_day_of_week := av_first_day_of_week x; av_id := av_id x; av_image := av_image x; av_indeterminate := av_indeterminate x; av_index := av_index x; av_layout := av_layout x; av_max := av_max x; av_parent := av_parent x; av_parent_type := av_parent_type x; av_pre_id := av_pre_id x; av_pre_index := av_pre_index x; av_pre_parent := av_pre_parent x; av_pre_parent_type := av_pre_parent_type x; av_progress := av_progress x; av_progress_style := av_progress_style x; av_scale_x := av_scale_x x; av_scale_y := av_scale_y x; av_spinner_mode := av_spinner_mode x; av_text := av_text x; av_translation_x := av_translation_x x; av_translation_y := av_translation_y x; av_type := av_type x |}.
Definition set_av_first_day_of_week (v : N) (x : android_view) : android_view :=
  {| av_ad_size := av_ad_size x; av_ad_unit_id := av_ad_unit_id x; av_alpha := av_alpha x; av_checked := av_checked x; av_choice_mode := av_choice_mode x; av_clickable := av_clickable x; av_custom_view := av_custom_view x; av_divider_height := av_divider_height x; av_enabled := av_enabled x; av_first_day_of_week := v; av_id := av_id x; av_image := av_image x; av_indeterminate := av_indeterminate x; av_index := av_index x; av_layout := av_layout x; av_max := av_max x; av_parent := av_parent x; av_parent_type := av_parent_type x; av_pre_id := av_pre_id x; av_pre_index := av_pre_index x; av_pre_parent := av_pre_parent x; av_pre_parent_type := av_pre_parent_type x; av_progress := av_progress x; av_progress_style := av_progress_style x; av_scale_x := av_scale_x x; av_scale_y := av_scale_y x; av_spinner_mode := av_spinner_mode x; av_text := av_text x; av_translation_x := av_translation_x x; av_translation_y := av_translation_y x; av_type := av_type x |}.
Definition set_av_id (v : str) (x : android_view) : android_view :=
  {| av_ad_size := av_ad_size x; av_ad_unit_id := av_ad_unit_id x; av_alpha := av_alpha x; av_checked := av_checked x; av_choice_mode := av_choice_mode x; av_clickable := av_clickable x; av_custom_view := av_custom_view x; av_divider_height := av_divider_height x; av_enabled := av_enabled x; av_first_day_of_week := av_first_day_of_week x; av_id := v; av_image := av_image x; av_indeterminate := av_indeterminate x; av_index := av_index x; av_layout := av_layout x; av_max := av_max x; av_parent := av_parent x; av_parent_type := av_parent_type x; av_pre_id := av_pre_id x; av_pre_index := av_pre_index x; av_pre_parent := av_pre_parent x; av_pre_parent_type := av_pre_parent_type x; av_progress := av_progress x; av_progress_style := av_progress_style x; av_scale_x := av_scale_x x; av_scale_y := av_scale_y x; av_spinner_mode := av_spinner_mode x; av_text := av_text x; av_translation_x := av_translation_x x; av_translation_y := av_translation_y x; av_type := av_type x |}.
Definition set_av_image (v : image_config) (x : android_view) : android_view :=
  {| av_ad_size := av_ad_size x; av_ad_unit_id := av_ad_unit_id x; av_alpha := av_alpha x; av_checked := av_checked x; av_choice_mode := av_choice_mode x; av_clickable := av_clickable x; av_custom_view := av_custom_view x; av_divider_height := av_divider_height x; av_enabled := av_enabled x; av_first_day_of_week := av_first_day_of_week x; av_id := av_id x; av_image := v; av_indeterminate := av_indeterminate x; av_index := av_index x; av_layout := av_layout x; av_max := av_max x; av_parent := av_parent x; av_parent_type := av_parent_type x; av_pre_id := av_pre_id x; av_pre_index := av_pre_index x; av_pre_parent := av_pre_parent x; av_pre_parent_type := av_pre_parent_type x; av_progress := av_progress x; av_progress_style := av_progress_style x; av_scale_x := av_scale_x x; av_scale_y := av_scale_y x; av_spinner_mode := av_spinner_mode x; av_text := av_text x; av_translation_x := av_translation_x x; av_translation_y := av_translation_y x; av_type := av_type x |}.
Definition set_av_indeterminate (v : bool) (x : android_view) : android_view :=
  {| av_ad_size := av_ad_size x; av_ad_unit_id := av_ad_unit_id x; av_alpha := av_alpha x; av_checked := av_checked x; av_choice_mode := av_choice_mode x; av_clickable := av_clickable x; av_custom_view := av_custom_view x; av_divider_height := av_divider_height x; av_enabled := av_enabled x; av_first_day_of_week := av_first_day_of_week x; av_id := av_id x; av_image := av_image x; av_indeterminate := v; av_index := av_index x; av_layout := av_layout x; av_max := av_max x; av_parent := av_parent x; av_parent_type := av_parent_type x; av_pre_id := av_pre_id x; av_pre_index := av_pre_index x; av_pre_parent := av_pre_parent x; av_pre_parent_type := av_pre_parent_type x; av_progress := av_progress x; av_progress_style := av_progress_style x; av_scale_x := av_scale_x x; av_scale_y := av_scale_y x; av_spinner_mode := av_spinner_mode x; av_text := av_text x; av_translation_x := av_translation_x x; av_translation_y := av_translation_y x; av_type := av_type x |}.
Definition set_av_layout (v : layout_config) (x : android_view) : android_view :=
  {| av_ad_size := av_ad_size x; av_ad_unit_id := av_ad_unit_id x; av_alpha := av_alpha x; av_checked := av_checked x; av_choice_mode := av_choice_mode x; av_clickable := av_clickable x; av_custom_view := av_custom_view x; av_divider_height := av_divider_height x; av_enabled := av_enabled x; av_first_day_of_week := av_first_day_of_week x; av_id := av_id x; av_image := av_image x; av_indeterminate := av_indeterminate x; av_index := av_index x; av_layout := v; av_max := av_max x; av_parent := av_parent x; av_parent_type := av_parent_type x; av_pre_id := av_pre_id x; av_pre_index := av_pre_index x; av_pre_parent := av_pre_parent x; av_pre_parent_type := av_pre_parent_type x; av_progress := av_progress x; av_progress_style := av_progress_style x; av_scale_x := av_scale_x x; av_scale_y := av_scale_y x; av_spinner_mode := av_spinner_mode x; av_text := av_text x; av_translation_x := av_translation_x x; av_translation_y := av_translation_y x; av_type := av_type x |}.
Definition set_av_max (v : N) (x : android_view) : android_view :=
  {| av_ad_size := av_ad_size x; av_ad_unit_id := av_ad_unit_id x; av_alpha := av_alpha x; av_checked := av_checked x; av_choice_mode := av_choice_mode x; av_clickable := av_clickable x; av_custom_view := av_custom_view x; av_divider_height := av_divider_height x; av_enabled := av_enabled x; av_first_day_of_week := av_first_day_of_week x; av_id := av_id x; av_image := av_image x; av_indeterminate := av_indeterminate x; av_index := av_index x; av_layout := av_layout x; av_max := v; av_parent := av_parent x; av_parent_type := av_parent_type x; av_pre_id := av_pre_id x; av_pre_index := av_pre_index x; av_pre_parent := av_pre_parent x; av_pre_parent_type := av_pre_parent_type x; av_progress := av_progress x; av_progress_style := av_progress_style x; av_scale_x := av_scale_x x; av_scale_y := av_scale_y x; av_spinner_mode := av_spinner_mode x; av_text := av_text x; av_translation_x := av_translation_x x; av_translation_y := av_translation_y x; av_type := av_type x |}.
Definition set_av_parent (v : option str) (x : android_view) : android_view :=
  {| av_ad_size := av_ad_size x; av_ad_unit_id := av_ad_unit_id x; av_alpha := av_alpha x; av_checked := av_checked x; av_choice_mode := av_choice_mode x; av_clickable := av_clickable x; av_custom_view := av_custom_view x; av_divider_height := av_divider_height x; av_enabled := av_enabled x; av_first_day_of_week := av_first_day_of_week x; av_id := av_id x; av_image := av_image x; av_indeterminate := av_indeterminate x; av_index := av_index x; av_layout := av_layout x; av_max := av_max x; av_parent := v; av_parent_type := av_parent_type x; av_pre_id := av_pre_id x; av_pre_index := av_pre_index x; av_pre_parent := av_pre_parent x; av_pre_parent_type := av_pre_parent_type x; av_progress := av_progress x; av_progress_style := av_progress_style x; av_scale_x := av_scale_x x; av_scale_y := av_scale_y x; av_spinner_mode := av_spinner_mode x; av_text := av_text x; av_translation_x := av_translation_x x; av_translation_y := av_translation_y x; av_type := av_type x |}.
Definition set_av_parent_type (v : Z) (x : android_view) : android_view :=
  {| av_ad_size := av_ad_size x; av_ad_unit_id := av_ad_unit_id x; av_alpha := av_alpha x; av_checked := av_checked x; av_choice_mode := av_choice_mode x; av_clickable := av_clickable x; av_custom_view := av_custom_view x; av_divider_height := av_divider_height x; av_enabled := av_enabled x; av_first_day_of_week := av_first_day_of_week x; av_id := av_id x; av_image := av_image x; av_indeterminate := av_indeterminate x; av_index := av_index x; av_layout := av_layout x; av_max := av_max x; av_parent := av_parent x; av_parent_type := v; av_pre_id := av_pre_id x; av_pre_index := av_pre_index x; av_pre_parent := av_pre_parent x; av_pre_parent_type := av_pre_parent_type x; av_progress := av_progress x; av_progress_style := av_progress_style x; av_scale_x := av_scale_x x; av_scale_y := av_scale_y x; av_spinner_mode := av_spinner_mode x; av_text := av_text x; av_translation_x := av_translation_x x; av_translation_y := av_translation_y x; av_type := av_type x |}.
Definition set_av_progress (v : N) (x : android_view) : android_view :=
  {| av_ad_size := av_ad_size x; av_ad_unit_id := av_ad_unit_id x; av_alpha := av_alpha x; av_checked := av_checked x; av_choice_mode := av_choice_mode x; av_clickable := av_clickable x; av_custom_view := av_custom_view x; av_divider_height := av_divider_height x; av_enabled := av_enabled x; av_first_day_of_week := av_first_day_of_week x; av_id := av_id x; av_image := av_image x; av_indeterminate := av_indeterminate x; av_index := av_index x; av_layout := av_layout x; av_max := av_max x; av_parent := av_parent x; av_parent_type := av_parent_type x; av_pre_id := av_pre_id x; av_pre_index := av_pre_index x; av_pre_parent := av_pre_parent x; av_pre_parent_type := av_pre_parent_type x; av_progress := v; av_progress_style := av_progress_style x; av_scale_x := av_scale_x x; av_scale_y := av_scale_y x; av_spinner_mode := av_spinner_mode x; av_text := av_text x; av_translation_x := av_translation_x x; av_translation_y := av_translation_y x; av_type := av_type x |}.
Definition set_av_progress_style (v : str) (x : android_view) : android_view :=
  {| av_ad_size := av_ad_size x; av_ad_unit_id := av_ad_unit_id x; av_alpha := av_alpha x; av_checked := av_checked x; av_choice_mode := av_choice_mode x; av_clickable := av_clickable x; av_custom_view := av_custom_view x; av_divider_height := av_divider_height x; av_enabled := av_enabled x; av_first_day_of_week := av_first_day_of_week x; av_id := av_id x; av_image := av_image x; av_indeterminate := av_indeterminate x; av_index := av_index x; av_layout := av_layout x; av_max := av_max x; av_parent := av_parent x; av_parent_type := av_parent_type x; av_pre_id := av_pre_id x; av_pre_index := av_pre_index x; av_pre_parent := av_pre_parent x; av_pre_parent_type := av_pre_parent_type x; av_progress := av_progress x; av_progress_style := v; av_scale_x := av_scale_x x; av_scale_y := av_scale_y x; av_spinner_mode := av_spinner_mode x; av_text := av_text x; av_translation_x := av_translation_x x; av_translation_y := av_translation_y x; av_type := av_type x |}.
Definition set_av_spinner_mode (v : spinner_mode) (x : android_view) : android_view :=
  {| av_ad_size := av_ad_size x; av_ad_unit_id := av_ad_unit_id x; av_alpha := av_alpha x; av_checked := av_checked x; av_choice_mode := av_choice_mode x; av_clickable := av_clickable x; av_custom_view := av_custom_view x; av_divider_height := av_divider_height x; av_enabled := av_enabled x; av_first_day_of_week := av_first_day_of_week x; av_id := av_id x; av_image := av_image x; av_indeterminate := av_indeterminate x; av_index := av_index x; av_layout := av_layout x; av_max := av_max x; av_parent := av_parent x; av_parent_type := av_parent_type x; av_pre_id := av_pre_id x; av_pre_index := av_pre_index x; av_pre_parent := av_pre_parent x; av_pre_parent_type := av_pre_parent_type x; av_progress := av_progress x; av_progress_style := av_progress_style x; av_scale_x := av_scale_x x; av_scale_y := av_scale_y x; av_spinner_mode := v; av_text := av_text x; av_translation_x := av_translation_x x; av_translation_y := av_translation_y x; av_type := av_type x |}.
Definition set_av_text (v : text_config) (x : android_view) : android_view :=
  {| av_ad_size := av_ad_size x; av_ad_unit_id := av_ad_unit_id x; av_alpha := av_alpha x; av_checked := av_checked x; av_choice_mode := av_choice_mode x; av_clickable := av_clickable x; av_custom_view := av_custom_view x; av_divider_height := av_divider_height x; av_enabled := av_enabled x; av_first_day_of_week := av_first_day_of_week x; av_id := av_id x; av_image := av_image x; av_indeterminate := av_indeterminate x; av_index := av_index x; av_layout := av_layout x; av_max := av_max x; av_parent := av_parent x; av_parent_type := av_parent_type x; av_pre_id := av_pre_id x; av_pre_index := av_pre_index x; av_pre_parent := av_pre_parent x; av_pre_parent_type := av_pre_parent_type x; av_progress := av_progress x; av_progress_style := av_progress_style x; av_scale_x := av_scale_x x; av_scale_y := av_scale_y x; av_spinner_mode := av_spinner_mode x; av_text := v; av_translation_x := av_translation_x x; av_translation_y := av_translation_y x; av_type := av_type x |}.
Definition set_lc_background_color (v : color) (x : layout_config) : layout_config :=
  {| lc_background_color := v; lc_gravity := lc_gravity x; lc_height := lc_height x; lc_layout_gravity := lc_layout_gravity x; lc_margin_bottom := lc_margin_bottom x; lc_margin_left := lc_margin_left x; lc_margin_right := lc_margin_right x; lc_margin_top := lc_margin_top x; lc_orientation := lc_orientation x; lc_padding_bottom := lc_padding_bottom x; lc_padding_left := lc_padding_left x; lc_padding_right := lc_padding_right x; lc_padding_top := lc_padding_top x; lc_weight := lc_weight x; lc_weight_sum := lc_weight_sum x; lc_width := lc_width x |}.
Definition set_lc_gravity (v : gravity) (x : layout_config) : layout_config :=
  {| lc_background_color := lc_background_color x; lc_gravity := v; lc_height := lc_height x; lc_layout_gravity := lc_layout_gravity x; lc_margin_bottom := lc_margin_bottom x; lc_margin_left := lc_margin_left x; lc_margin_right := lc_margin_right x; lc_margin_top := lc_margin_top x; lc_orientation := lc_orientation x; lc_padding_bottom := lc_padding_bottom x; lc_padding_left := lc_padding_left x; lc_padding_right := lc_padding_right x; lc_padding_top := lc_padding_top x; lc_weight := lc_weight x; lc_weight_sum := lc_weight_sum x; lc_width := lc_width x |}.
Definition set_lc_height (v : size) (x : layout_config) : layout_config :=
  {| lc_background_color := lc_background_color x; lc_gravity := lc_gravity x; lc_height := v; lc_layout_gravity := lc_layout_gravity x; lc_margin_bottom := lc_margin_bottom x; lc_margin_left := lc_margin_left x; lc_margin_right := lc_margin_right x; lc_margin_top := lc_margin_top x; lc_orientation := lc_orientation x; lc_padding_bottom := lc_padding_bottom x; lc_padding_left := lc_padding_left x; lc_padding_right := lc_padding_right x; lc_padding_top := lc_padding_top x; lc_weight := lc_weight x; lc_weight_sum := lc_weight_sum x; lc_width := lc_width x |}.
Definition set_lc_layout_gravity (v : gravity) (x : layout_config) : layout_config :=
  {| lc_background_color := lc_background_color x; lc_gravity := lc_gravity x; lc_height := lc_height x; lc_layout_gravity := v; lc_margin_bottom := lc_margin_bottom x; lc_margin_left := lc_margin_left x; lc_margin_right := lc_margin_right x; lc_margin_top := lc_margin_top x; lc_orientation := lc_orientation x; lc_padding_bottom := lc_padding_bottom x; lc_padding_left := lc_padding_left x; lc_padding_right := lc_padding_right x; lc_padding_top := lc_padding_top x; lc_weight := lc_weight x; lc_weight_sum := lc_weight_sum x; lc_width := lc_width x |}.
Definition set_lc_margin_bottom (v : N) (x : layout_config) : layout_config :=
  {| lc_background_color := lc_background_color x; lc_gravity := lc_gravity x; lc_height := lc_height x; lc_layout_gravity := lc_layout_gravity x; lc_margin_bottom := v; lc_margin_left := lc_margin_left x; lc_margin_right := lc_margin_right x; lc_margin_top := lc_margin_top x; lc_orientation := lc_orientation x; lc_padding_bottom := lc_padding_bottom x; lc_padding_left := lc_padding_left x; lc_padding_right := lc_padding_right x; lc_padding_top := lc_padding_top x; lc_weight := lc_weight x; lc_weight_sum := lc_weight_sum x; lc_width := lc_width x |}.
Definition set_lc_margin_left (v : N) (x : layout_config) : layout_config :=
  {| lc_background_color := lc_background_color x; lc_gravity := lc_gravity x; lc_height := lc_height x; lc_layout_gravity := lc_layout_gravity x; lc_margin_bottom := lc_margin_bottom x; lc_margin_left := v; lc_margin_right := lc_margin_right x; lc_margin_top := lc_margin_top x; lc_orientation := lc_orientation x; lc_padding_bottom := lc_padding_bottom x; lc_padding_left := lc_padding_left x; lc_padding_right := lc_padding_right x; lc_padding_top := lc_padding_top x; lc_weight := lc_weight x; lc_weight_sum := lc_weight_sum x; lc_width := lc_width x |}.
Definition set_lc_margin_right (v : N) (x : layout_config) : layout_config :=
  {| lc_background_color := lc_background_color x; lc_gravity := lc_gravity x; lc_height := lc_height x; lc_layout_gravity := lc_layout_gravity x; lc_margin_bottom := lc_margin_bottom x; lc_margin_left := lc_margin_left x; lc_margin_right := v; lc_margin_top := lc_margin_top x; lc_orientation := lc_orientation x; lc_padding_bottom := lc_padding_bottom x; lc_padding_left := lc_padding_left x; lc_padding_right := lc_padding_right x; lc_padding_top := lc_padding_top x; lc_weight := lc_weight x; lc_weight_sum := lc_weight_sum x; lc_width := lc_width x |}.
Definition set_lc_margin_top (v : N) (x : layout_config) : layout_config :=
  {| lc_background_color := lc_background_color x; lc_gravity := lc_gravity x; lc_height := lc_height x; lc_layout_gravity := lc_layout_gravity x; lc_margin_bottom := lc_margin_bottom x; lc_margin_left := lc_margin_left x; lc_margin_right := lc_margin_right x; lc_margin_top := v; lc_orientation := lc_orientation x; lc_padding_bottom := lc_padding_bottom x; lc_padding_left := lc_padding_left x; lc_padding_right := lc_padding_right x; lc_padding_top := lc_padding_top x; lc_weight := lc_weight x; lc_weight_sum := lc_weight_sum x; lc_width := lc_width x |}.
Definition set_lc_orientation (v : layout_orientation) (x : layout_config) : layout_config :=
  {| lc_background_color := lc_background_color x; lc_gravity := lc_gravity x; lc_height := lc_height x; lc_layout_gravity := lc_layout_gravity x; lc_margin_bottom := lc_margin_bottom x; lc_margin_left := lc_margin_left x; lc_margin_right := lc_margin_right x; lc_margin_top := lc_margin_top x; lc_orientation := v; lc_padding_bottom := lc_padding_bottom x; lc_padding_left := lc_padding_left x; lc_padding_right := lc_padding_right x; lc_padding_top := lc_padding_top x; lc_weight := lc_weight x; lc_weight_sum := lc_weight_sum x; lc_width := lc_width x |}.
Definition set_lc_padding_bottom (v : N) (x : layout_config) : layout_config :=
  {| lc_background_color := lc_background_color x; lc_gravity := lc_gravity x; lc_height := lc_height x; lc_layout_gravity := lc_layout_gravity x; lc_margin_bottom := lc_margin_bottom x; lc_margin_left := lc_margin_left x; lc_margin_right := lc_margin_right x; lc_margin_top := lc_margin_top x; lc_orientation := lc_orientation x; lc_padding_bottom := v; lc_padding_left := lc_padding_left x; lc_padding_right := lc_padding_right x; lc_padding_top := lc_padding_top x; lc_weight := lc_weight x; lc_weight_sum := lc_weight_sum x; lc_width := lc_width x |}.
Definition set_lc_padding_left (v : N) (x : layout_config) : layout_config :=
  {| lc_background_color := lc_background_color x; lc_gravity := lc_gravity x; lc_height := lc_height x; lc_layout_gravity := lc_layout_gravity x; lc_margin_bottom := lc_margin_bottom x; lc_margin_left := lc_margin_left x; lc_margin_right := lc_margin_right x; lc_margin_top := lc_margin_top x; lc_orientation := lc_orientation x; lc_padding_bottom := lc_padding_bottom x; lc_padding_left := v; lc_padding_right := lc_padding_right x; lc_padding_top := lc_padding_top x; lc_weight := lc_weight x; lc_weight_sum := lc_weight_sum x; lc_width := lc_width x |}.
Definition set_lc_padding_right (v : N) (x : layout_config) : layout_config :=
  {| lc_background_color := lc_background_color x; lc_gravity := lc_gravity x; lc_height := lc_height x; lc_layout_gravity := lc_layout_gravity x; lc_margin_bottom := lc_margin_bottom x; lc_margin_left := lc_margin_left x; lc_margin_right := lc_margin_right x; lc_margin_top := lc_margin_top x; lc_orientation := lc_orientation x; lc_padding_bottom := lc_padding_bottom x; lc_padding_left := lc_padding_left x; lc_padding_right := v; lc_padding_top := lc_padding_top x; lc_weight := lc_weight x; lc_weight_sum := lc_weight_sum x; lc_width := lc_width x |}.
Definition set_lc_padding_top (v : N) (x : layout_config) : layout_config :=
  {| lc_background_color := lc_background_color x; lc_gravity := lc_gravity x; lc_height := lc_height x; lc_layout_gravity := lc_layout_gravity x; lc_margin_bottom := lc_margin_bottom x; lc_margin_left := lc_margin_left x; lc_margin_right := lc_margin_right x; lc_margin_top := lc_margin_top x; lc_orientation := lc_orientation x; lc_padding_bottom := lc_padding_bottom x; lc_padding_left := lc_padding_left x; lc_padding_right := lc_padding_right x; lc_padding_top := v; lc_weight := lc_weight x; lc_weight_sum := lc_weight_sum x; lc_width := lc_width x |}.
Definition set_lc_weight (v : N) (x : layout_config) : layout_config :=
  {| lc_background_color := lc_background_color x; lc_gravity := lc_gravity x; lc_height := lc_height x; lc_layout_gravity := lc_layout_gravity x; lc_margin_bottom := lc_margin_bottom x; lc_margin_left := lc_margin_left x; lc_margin_right := lc_margin_right x; lc_margin_top := lc_margin_top x; lc_orientation := lc_orientation x; lc_padding_bottom := lc_padding_bottom x; lc_padding_left := lc_padding_left x; lc_padding_right := lc_padding_right x; lc_padding_top := lc_padding_top x; lc_weight := v; lc_weight_sum := lc_weight_sum x; lc_width := lc_width x |}.
Definition set_lc_weight_sum (v : N) (x : layout_config) : layout_config :=
  {| lc_background_color := lc_background_color x; lc_gravity := lc_gravity x; lc_height := lc_height x; lc_layout_gravity := lc_layout_gravity x; lc_margin_bottom := lc_margin_bottom x; lc_margin_left := lc_margin_left x; lc_margin_right := lc_margin_right x; lc_margin_top := lc_margin_top x; lc_orientation := lc_orientation x; lc_padding_bottom := lc_padding_bottom x; lc_padding_left := lc_padding_left x; lc_padding_right := lc_padding_right x; lc_padding_top := lc_padding_top x; lc_weight := lc_weight x; lc_weight_sum := v; lc_width := lc_width x |}.
Definition set_lc_width (v : size) (x : layout_config) : layout_config :=
  {| lc_background_color := lc_background_color x; lc_gravity := lc_gravity x; lc_height := lc_height x; lc_layout_gravity := lc_layout_gravity x; lc_margin_bottom := lc_margin_bottom x; lc_margin_left := lc_margin_left x; lc_margin_right := lc_margin_right x; lc_margin_top := lc_margin_top x; lc_orientation := lc_orientation x; lc_padding_bottom := lc_padding_bottom x; lc_padding_left := lc_padding_left x; lc_padding_right := lc_padding_right x; lc_padding_top := lc_padding_top x; lc_weight := lc_weight x; lc_weight_sum := lc_weight_sum x; lc_width := v |}.
Definition set_tc_hint (v : str) (x : text_config) : text_config :=
  {| tc_hint := v; tc_hint_color := tc_hint_color x; tc_ime_option := tc_ime_option x; tc_input_type := tc_input_type x; tc_line := tc_line x; tc_single_line := tc_single_line x; tc_text := tc_text x; tc_text_color := tc_text_color x; tc_text_font := tc_text_font x; tc_text_size := tc_text_size x; tc_text_type := tc_text_type x |}.
Definition set_tc_hint_color (v : color) (x : text_config) : text_config :=
  {| tc_hint := tc_hint x; tc_hint_color := v; tc_ime_option := tc_ime_option x; tc_input_type := tc_input_type x; tc_line := tc_line x; tc_single_line := tc_single_line x; tc_text := tc_text x; tc_text_color := tc_text_color x; tc_text_font := tc_text_font x; tc_text_size := tc_text_size x; tc_text_type := tc_text_type x |}.
Definition set_tc_ime_option (v : ime_option) (x : text_config) : text_config :=
  {| tc_hint := tc_hint x; tc_hint_color := tc_hint_color x; tc_ime_option := v; tc_input_type := tc_input_type x; tc_line := tc_line x; tc_single_line := tc_single_line x; tc_text := tc_text x; tc_text_color := tc_text_color x; tc_text_font := tc_text_font x; tc_text_size := tc_text_size x; tc_text_type := tc_text_type x |}.
Definition set_tc_input_type (v : input_type) (x : text_config) : text_config :=
  {| tc_hint := tc_hint x; tc_hint_color := tc_hint_color x; tc_ime_option := tc_ime_option x; tc_input_type := v; tc_line := tc_line x; tc_single_line := tc_single_line x; tc_text := tc_text x; tc_text_color := tc_text_color x; tc_text_font := tc_text_font x; tc_text_size := tc_text_size x; tc_text_type := tc_text_type x |}.
Definition set_tc_line (v : N) (x : text_config) : text_config :=
  {| tc_hint := tc_hint x; tc_hint_color := tc_hint_color x; tc_ime_option := tc_ime_option x; tc_input_type := tc_input_type x; tc_line := v; tc_single_line := tc_single_line x; tc_text := tc_text x; tc_text_color := tc_text_color x; tc_text_font := tc_text_font x; tc_text_size := tc_text_size x; tc_text_type := tc_text_type x |}.
Definition set_tc_single_line (v : bool) (x : text_config) : text_config :=
  {| tc_hint := tc_hint x; tc_hint_color := tc_hint_color x; tc_ime_option := tc_ime_option x; tc_input_type := tc_input_type x; tc_line := tc_line x; tc_single_line := v; tc_text := tc_text x; tc_text_color := tc_text_color x; tc_text_font := tc_text_font x; tc_text_size := tc_text_size x; tc_text_type := tc_text_type x |}.
Definition set_tc_text (v : str) (x : text_config) : text_config :=
  {| tc_hint := tc_hint x; tc_hint_color := tc_hint_color x; tc_ime_option := tc_ime_option x; tc_input_type := tc_input_type x; tc_line := tc_line x; tc_single_line := tc_single_line x; tc_text := v; tc_text_color := tc_text_color x; tc_text_font := tc_text_font x; tc_text_size := tc_text_size x; tc_text_type := tc_text_type x |}.
Definition set_tc_text_color (v : color) (x : text_config) : text_config :=
  {| tc_hint := tc_hint x; tc_hint_color := tc_hint_color x; tc_ime_option := tc_ime_option x; tc_input_type := tc_input_type x; tc_line := tc_line x; tc_single_line := tc_single_line x; tc_text := tc_text x; tc_text_color := v; tc_text_font := tc_text_font x; tc_text_size := tc_text_size x; tc_text_type := tc_text_type x |}.
Definition set_tc_text_font (v : str) (x : text_config) : text_config :=
  {| tc_hint := tc_hint x; tc_hint_color := tc_hint_color x; tc_ime_option := tc_ime_option x; tc_input_type := tc_input_type x; tc_line := tc_line x; tc_single_line := tc_single_line x; tc_text := tc_text x; tc_text_color := tc_text_color x; tc_text_font := v; tc_text_size := tc_text_size x; tc_text_type := tc_text_type x |}.
Definition set_tc_text_size (v : N) (x : text_config) : text_config :=
  {| tc_hint := tc_hint x; tc_hint_color := tc_hint_color x; tc_ime_option := tc_ime_option x; tc_input_type := tc_input_type x; tc_line := tc_line x; tc_single_line := tc_single_line x; tc_text := tc_text x; tc_text_color := tc_text_color x; tc_text_font := tc_text_font x; tc_text_size := v; tc_text_type := tc_text_type x |}.
Definition set_tc_text_type (v : text_type) (x : text_config) : text_config :=
  {| tc_hint := tc_hint x; tc_hint_color := tc_hint_color x; tc_ime_option := tc_ime_option x; tc_input_type := tc_input_type x; tc_line := tc_line x; tc_single_line := tc_single_line x; tc_text := tc_text x; tc_text_color := tc_text_color x; tc_text_font := tc_text_font x; tc_text_size := tc_text_size x; tc_text_type := v |}.
Definition set_ic_res_name (v : option str) (x : image_config) : image_config :=
  {| ic_res_name := v; ic_rotate := ic_rotate x; ic_scale_type := ic_scale_type x |}.
Definition set_ic_scale_type (v : scale_type) (x : image_config) : image_config :=
  {| ic_res_name := ic_res_name x; ic_rotate := ic_rotate x; ic_scale_type := v |}.
(** [view.layout.f = v], [view.text.f = v], [view.image.f = v] *)
Definition in_layout (f : layout_config -> layout_config) (x : android_view) : android_view := set_av_layout (f (av_layout x)) x.
Definition in_text (f : text_config -> text_config) (x : android_view) : android_view := set_av_text (f (av_text x)) x.
Definition in_image (f : image_config -> image_config) (x : android_view) : android_view := set_av_image (f (av_image x)) x.

(** ** View types *)
(** view.rs L120-126 *)
Record sides := { sd_top : N; sd_right : N; sd_bottom : N; sd_left : N }.
(** view.rs L130-219 *)
Inductive view_type :=
| VLinearLayout (orientation : layout_orientation) (g : gravity)
| VScrollView (orientation : layout_orientation) (g : gravity)
| VButton (text : str) (text_color : color) (text_size : N) (text_style : text_type)
| VTextView (text : str) (text_color : color) (text_size : N) (single_line : bool) (text_font : str)
            (text_style : text_type) (lines : N)
| VEditText (text : str) (text_color : color) (text_size : N) (single_line : bool) (text_font : str)
            (text_style : text_type) (lines : N) (hint : str) (hint_color : color) (ime : ime_option) (input : input_type)
| VImageView (image_res_name : str) (image_scale_type : scale_type)
| VWebView
| VProgressBar (max_progress progress : N) (indeterminate : bool) (progress_style : str)
| VListView (divider_height : N) (custom_view : str)
| VSpinner (mode : spinner_mode)
| VCheckBox (checked : bool) (text : str) (text_color : color) (text_size : N) (text_font : str) (text_style : text_type)
| VSwitch (checked : bool) (text : str) (text_color : color) (text_size : N) (text_font : str) (text_style : text_type)
| VSeekBar (max_progress progress : N)
| VCalendarView (first_day_of_week : N)
| VFab (image_res_name : str)
| VAdView (adview_size : str)
| VMapView.
(** view.rs L459-470 *)
Inductive view_type_error := UnknownViewType (view_type : N) (view_id : str) | ResNameNotPresent (view_id : str).

(** view.rs L223-321; the error value is [Err], so the result has no panic *)
Definition from_view (v : android_view) : view_type + view_type_error :=
  let l := av_layout v in let t := av_text v in let i := av_image v in
  match av_type v with
  | 0 => inl (VLinearLayout (lc_orientation l) (lc_gravity l))
  | 2 => inl (VScrollView LoHorizontal (lc_gravity l))
  | 3 => inl (VButton (tc_text t) (tc_text_color t) (tc_text_size t) (tc_text_type t))
  | 4 => inl (VTextView (tc_text t) (tc_text_color t) (tc_text_size t) (tc_single_line t) (tc_text_font t)
                        (tc_text_type t) (tc_line t))
  | 5 => inl (VEditText (tc_text t) (tc_text_color t) (tc_text_size t) (tc_single_line t) (tc_text_font t)
                        (tc_text_type t) (tc_line t) (tc_hint t) (tc_hint_color t) (tc_ime_option t) (tc_input_type t))
  | 6 => match ic_res_name i with
         | Some r => inl (VImageView r (ic_scale_type i))
         | None => inr (ResNameNotPresent (av_id v))
         end
  | 7 => inl VWebView
  | 8 => inl (VProgressBar (av_max v) (av_progress v) (av_indeterminate v) (av_progress_style v))
  | 9 => inl (VListView (av_divider_height v) (av_custom_view v))
  | 10 => inl (VSpinner (av_spinner_mode v))
  | 11 => inl (VCheckBox (av_checked v) (tc_text t) (tc_text_color t) (tc_text_size t) (tc_text_font t) (tc_text_type t))
  | 12 => inl (VScrollView LoVertical (lc_gravity l))
  | 13 => inl (VSwitch (av_checked v) (tc_text t) (tc_text_color t) (tc_text_size t) (tc_text_font t) (tc_text_type t))
  | 14 => inl (VSeekBar (av_max v) (av_progress v))
  | 15 => inl (VCalendarView (av_first_day_of_week v))
  | 16 => match ic_res_name i with
          | Some r => inl (VFab r)
          | None => inr (ResNameNotPresent (av_id v))
          end
  | 17 => inl (VAdView (av_ad_size v))
  | 18 => inl VMapView
  | n => inr (UnknownViewType n (av_id v))
  end.
(** view.rs L324-344 *)
Definition get_type_id (t : view_type) : N :=
  match t with
  | VLinearLayout _ _ => 0
  | VScrollView _ _ => 2
  | VButton _ _ _ _ => 3
  | VTextView _ _ _ _ _ _ _ => 4
  | VEditText _ _ _ _ _ _ _ _ _ _ _ => 5
  | VImageView _ _ => 6
  | VWebView => 7
  | VProgressBar _ _ _ _ => 8
  | VListView _ _ => 9
  | VSpinner _ => 10
  | VCheckBox _ _ _ _ _ _ => 11
  | VSwitch _ _ _ _ _ _ => 12
  | VSeekBar _ _ => 13
  | VCalendarView _ => 14
  | VFab _ => 15
  | VAdView _ => 16
  | VMapView => 17
  end.
(** view.rs L347-456; assignments in the order of the code *)
Definition apply_values (t : view_type) (v : android_view) : android_view :=
  match t with
  | VLinearLayout o g | VScrollView o g => in_layout (set_lc_gravity g) (in_layout (set_lc_orientation o) v)
  | VButton a b c d =>
    in_text (set_tc_text_type d) (in_text (set_tc_text_size c) (in_text (set_tc_text_color b) (in_text (set_tc_text a) v)))
  | VTextView a b c s f d n =>
    in_text (set_tc_line n) (in_text (set_tc_text_type d) (in_text (set_tc_text_font f) (in_text (set_tc_single_line s)
      (in_text (set_tc_text_size c) (in_text (set_tc_text_color b) (in_text (set_tc_text a) v))))))
  | VEditText a b c s f d n h hc im it =>
    in_text (set_tc_input_type it) (in_text (set_tc_ime_option im) (in_text (set_tc_hint_color hc) (in_text (set_tc_hint h)
      (in_text (set_tc_line n) (in_text (set_tc_text_type d) (in_text (set_tc_text_font f) (in_text (set_tc_single_line s)
        (in_text (set_tc_text_size c) (in_text (set_tc_text_color b) (in_text (set_tc_text a) v))))))))))
  | VImageView r s => in_image (set_ic_scale_type s) (in_image (set_ic_res_name (Some r)) v)
  | VWebView => v
  | VProgressBar m p i s => set_av_progress_style s (set_av_indeterminate i (set_av_progress p (set_av_max m v)))
  | VListView d c => set_av_custom_view c (set_av_divider_height d v)
  | VSpinner m => set_av_spinner_mode m v
  | VCheckBox k a b c f d | VSwitch k a b c f d =>
    in_text (set_tc_text_type d) (in_text (set_tc_text_font f) (in_text (set_tc_text_size c)
      (in_text (set_tc_text_color b) (in_text (set_tc_text a) (set_av_checked k v)))))
  | VSeekBar m p => set_av_progress p (set_av_max m v)
  | VCalendarView d => set_av_first_day_of_week d v
  | VFab r => in_image (set_ic_res_name (Some r)) v
  | VAdView s => set_av_ad_size s v
  | VMapView => v
  end.

(** ** Views *)
(** view.rs L13-63, the fields other than [children] *)
Record vattrs := {
  vn_id : str; vn_background_color : color; vn_height : size; vn_width : size; vn_padding : sides; vn_margin : sides;
  vn_weight : N; vn_weight_sum : N; vn_layout_gravity : gravity; vn_view : view_type + view_type_error; vn_raw : android_view
}.
(** view.rs L13-63 *)
Inductive aview := VNode (n : vattrs) (children : list aview).
Definition vnode (v : aview) : vattrs := match v with VNode n _ => n end.
Definition vchildren (v : aview) : list aview := match v with VNode _ c => c end.
Definition vid (v : aview) : str := vn_id (vnode v).
(** view.rs L89-116 *)
Definition attrs_of (v : android_view) : vattrs :=
  let l := av_layout v in
  {| vn_id := av_id v; vn_background_color := lc_background_color l; vn_height := lc_height l; vn_width := lc_width l;
     vn_padding := {| sd_top := lc_padding_top l; sd_right := lc_padding_right l; sd_bottom := lc_padding_bottom l;
                      sd_left := lc_padding_left l |};
     vn_margin := {| sd_top := lc_margin_top l; sd_right := lc_margin_right l; sd_bottom := lc_margin_bottom l;
                     sd_left := lc_margin_left l |};
     vn_weight := lc_weight l; vn_weight_sum := lc_weight_sum l; vn_layout_gravity := lc_layout_gravity l;
     vn_view := from_view v; vn_raw := v |}.
Definition view_from (v : android_view) : aview := VNode (attrs_of v) [].

(** [Iterator::find_map] *)
Section FindMap.
  Context {A B : Type} (f : A -> option B).
  Fixpoint find_map (l : list A) : option B :=
    match l with [] => None | x :: r => match f x with Some b => Some b | None => find_map r end end.
End FindMap.
(** view.rs L66-75 *)
Fixpoint find_id (id : str) (v : aview) : option aview :=
  match v with
  | VNode n ch => if str_eqb (vn_id n) id then Some v else find_map (find_id id) ch
  end.
(** A mutable reference into a structure of type [T]: the view it points to, and the structure after a view is
    written through the reference. [find_map] over [iter_mut] leaves the elements it passes over as they are. *)
Definition vref (T : Type) : Type := aview * (aview -> T).
Section FindMapMut.
  Context (f : aview -> option (vref aview)).
  Fixpoint find_map_mut (l : list aview) : option (vref (list aview)) :=
    match l with
    | [] => None
    | x :: r =>
      match f x with
      | Some (w, put) => Some (w, fun w' => put w' :: r)
      | None => match find_map_mut r with Some (w, put) => Some (w, fun w' => x :: put w') | None => None end
      end
    end.
End FindMapMut.
(** view.rs L77-86 *)
Fixpoint find_id_mut (id : str) (v : aview) : option (vref aview) :=
  match v with
  | VNode n ch =>
    if str_eqb (vn_id n) id then Some (v, fun w => w)
    else match find_map_mut (find_id_mut id) ch with
         | Some (w, put) => Some (w, fun w' => VNode n (put w'))
         | None => None
         end
  end.

(** view.rs L502-513 *)
Inductive layout_error := NoParentField (view_id : str) | NonexistentParent (view_id parent_id : str).
Definition ROOT : str := lit "root".
(** [parent.children.push(v)] *)
Definition push_child (c : aview) (v : aview) : aview := VNode (vnode v) (vchildren v ++ [c]).
(** view.rs L480-497, one iteration *)
Definition layout_step (result : list aview) (v : android_view) : res layout_error (list aview) :=
  let* parent_id := ok_or (NoParentField (av_id v)) (av_parent v) in
  if str_eqb parent_id ROOT then Ok (result ++ [view_from v])
  else
    let* r := ok_or (NonexistentParent (av_id v) parent_id) (find_map_mut (find_id_mut parent_id) result) in
    Ok (snd r (push_child (view_from v) (fst r))).
Fixpoint layout_steps (vs : list android_view) (result : list aview) : res layout_error (list aview) :=
  match vs with
  | [] => Ok result
  | v :: r => let* result' := layout_step result v in layout_steps r result'
  end.
(** view.rs L477-500 *)
Definition parse_raw_layout (l : layout) : res layout_error (list aview) := layout_steps l [].

(** [as i8] of a u8 *)
Definition i8_of_u8 (n : N) : Z := if n <? 128 then Z.of_N n else (Z.of_N n - 256)%Z.
(** view.rs L537-547 *)
Definition type_of_view (v : vattrs) (result_view : android_view) : N * android_view :=
  match vn_view v with
  | inl t => (get_type_id t, apply_values t result_view)
  | inr _ => (av_type result_view, result_view)
  end.
(** view.rs L550-566 *)
Definition apply_common (v : vattrs) (x : android_view) : android_view :=
  let x := in_layout (set_lc_width (vn_width v)) (in_layout (set_lc_height (vn_height v)) x) in
  let x := in_layout (set_lc_padding_bottom (sd_bottom (vn_padding v))) x in
  let x := in_layout (set_lc_padding_left (sd_left (vn_padding v))) x in
  let x := in_layout (set_lc_padding_right (sd_right (vn_padding v))) x in
  let x := in_layout (set_lc_padding_top (sd_top (vn_padding v))) x in
  let x := in_layout (set_lc_margin_bottom (sd_bottom (vn_margin v))) x in
  let x := in_layout (set_lc_margin_left (sd_left (vn_margin v))) x in
  let x := in_layout (set_lc_margin_right (sd_right (vn_margin v))) x in
  let x := in_layout (set_lc_margin_top (sd_top (vn_margin v))) x in
  let x := in_layout (set_lc_background_color (vn_background_color v)) x in
  let x := in_layout (set_lc_layout_gravity (vn_layout_gravity v)) x in
  let x := in_layout (set_lc_weight (vn_weight v)) x in
  in_layout (set_lc_weight_sum (vn_weight_sum v)) x.
(** view.rs L526-569: the raw view written for one view, and the type id its children are given *)
Definition flatten_node (n : vattrs) (parent_id : str) (parent_type : N) : N * android_view :=
  let x := set_av_parent_type (i8_of_u8 parent_type) (set_av_parent (Some parent_id) (set_av_id (vn_id n) (vn_raw n))) in
  let (ty, x) := type_of_view n x in
  (ty, apply_common n x).
(** view.rs L524-581, one iteration with the recursive call: the raw view and what its children are flattened to
    (L572-580 skips the call for a view without children, which makes no difference) *)
Fixpoint flatten_view (v : aview) (parent_id : str) (parent_type : N) : android_view * list android_view :=
  match v with
  | VNode n ch =>
    let (ty, x) := flatten_node n parent_id parent_type in
    let rs := map (fun c => flatten_view c (vn_id n) ty) ch in
    (x, map fst rs ++ flat_map snd rs)
  end.
(** view.rs L516-587; first the views themselves, then all their children *)
Definition flatten_views (views : list aview) (parent_id : option str) (parent_type : option N) : list android_view :=
  let p := match parent_id with Some p => p | None => ROOT end in
  let t := match parent_type with Some t => t | None => 0 end in
  let rs := map (fun c => flatten_view c p t) views in
  map fst rs ++ flat_map snd rs.
