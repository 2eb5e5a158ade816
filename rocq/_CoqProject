-Q theories Verif
theories/Acc_Model.v
theories/Acc_Proofs.v
theories/Acc_Proofs2.v
theories/Acc_Proofs3.v
theories/Acc_Props.v
theories/Acc_Spec.v
theories/Bits_Model.v
theories/Bits_Proofs.v
theories/Bits_Props.v
theories/Bits_Spec.v
theories/Cfg_Model.v
theories/Cfg_Proofs.v
theories/Cfg_Props.v
theories/Cfg_Spec.v
theories/Debounce_Model.v
theories/Debounce_Proofs.v
theories/Debounce_Proofs2.v
theories/Debounce_Props.v
theories/Debounce_Spec.v
theories/Dev_Model.v
theories/Dev_Proofs.v
theories/Dev_Proofs2.v
theories/Dev_Props.v
theories/Dev_Spec.v
theories/Es_Model.v
theories/Es_Proofs.v
theories/Es_Proofs2.v
theories/Es_Proofs3.v
theories/Es_Props.v
theories/Es_Props2.v
theories/Es_Spec.v
theories/Evt_Model.v
theories/Evt_Proofs.v
theories/Evt_Props.v
theories/Evt_Spec.v
theories/Gest_Model.v
theories/Gest_Proofs.v
theories/Gest_Proofs2.v
theories/Gest_Proofs3.v
theories/Gest_Proofs4.v
theories/Gest_Proofs5.v
theories/Gest_Proofs6.v
theories/Gest_Proofs7.v
theories/Gest_Proofs8.v
theories/Gest_Props.v
theories/Gest_Spec.v
theories/Hw_Model.v
theories/Hw_Proofs.v
theories/Hw_Props.v
theories/Hw_Spec.v
theories/Jit_Model.v
theories/Jit_Proofs.v
theories/Jit_Proofs2.v
theories/Jit_Proofs3.v
theories/Jit_Proofs4.v
theories/Jit_Props.v
theories/Jit_Props2.v
theories/Jit_Spec.v
theories/Keys_Model.v
theories/Keys_Proofs.v
theories/Keys_Props.v
theories/Keys_Spec.v
theories/Life_Model.v
theories/Life_Proofs.v
theories/Life_Proofs2.v
theories/Life_Proofs3.v
theories/Life_Proofs4.v
theories/Life_Proofs5.v
theories/Life_Props.v
theories/Life_Props2.v
theories/Life_Props3.v
theories/Life_Spec.v
theories/List_Model.v
theories/List_Proofs.v
theories/List_Props.v
theories/List_Spec.v
theories/Matrix_Model.v
theories/Matrix_Proofs.v
theories/Matrix_Props.v
theories/Matrix_Spec.v
theories/MiddleButton_Model.v
theories/MiddleButton_Proofs.v
theories/MiddleButton_Proofs2.v
theories/MiddleButton_Proofs3.v
theories/MiddleButton_Props.v
theories/MiddleButton_Spec.v
theories/Msc_Model.v
theories/Msc_Proofs.v
theories/Msc_Props.v
theories/Msc_Spec.v
theories/Pad_Model.v
theories/Pad_Proofs.v
theories/Pad_Proofs2.v
theories/Pad_Proofs3.v
theories/Pad_Proofs4.v
theories/Pad_Proofs5.v
theories/Pad_Proofs6.v
theories/Pad_Proofs7.v
theories/Pad_Props.v
theories/Pad_Spec.v
theories/Palm_Model.v
theories/Palm_Proofs1.v
theories/Palm_Proofs10.v
theories/Palm_Proofs2.v
theories/Palm_Proofs3.v
theories/Palm_Proofs4.v
theories/Palm_Proofs5.v
theories/Palm_Proofs6.v
theories/Palm_Proofs7.v
theories/Palm_Proofs8.v
theories/Palm_Proofs9.v
theories/Palm_Props.v
theories/Palm_Props2.v
theories/Palm_Props3.v
theories/Palm_Props4.v
theories/Palm_Props5.v
theories/Palm_Spec.v
theories/Palm_Spec2.v
theories/Palm_Spec3.v
theories/Parse_Model.v
theories/Parse_Proofs.v
theories/Parse_Proofs2.v
theories/Parse_Props.v
theories/Parse_Spec.v
theories/Pipeline_Model.v
theories/Pipeline_Proofs.v
theories/Pipeline_Proofs2.v
theories/Pipeline_Proofs3.v
theories/Pipeline_Proofs4.v
theories/Pipeline_Proofs5.v
theories/Pipeline_Proofs6.v
theories/Pipeline_Props.v
theories/Pipeline_Spec.v
theories/Queue_Model.v
theories/Queue_Proofs.v
theories/Queue_Props.v
theories/Queue_Spec.v
theories/Quirks_Model.v
theories/Quirks_Proofs.v
theories/Quirks_Proofs2.v
theories/Quirks_Proofs3.v
theories/Quirks_Proofs4.v
theories/Quirks_Proofs5.v
theories/Quirks_Proofs6.v
theories/Quirks_Proofs7.v
theories/Quirks_Props.v
theories/Quirks_Props2.v
theories/Quirks_Spec.v
theories/Rc_Model.v
theories/Rc_Proofs.v
theories/Rc_Proofs2.v
theories/Rc_Proofs3.v
theories/Rc_Proofs4.v
theories/Rc_Proofs5.v
theories/Rc_Proofs6.v
theories/Rc_Proofs7.v
theories/Rc_Proofs8.v
theories/Rc_Props.v
theories/Rc_Props2.v
theories/Rc_Spec.v
theories/Scroll_Model.v
theories/Scroll_Proofs.v
theories/Scroll_Props.v
theories/Scroll_Spec.v
theories/Src_Model.v
theories/Src_Proofs.v
theories/Src_Props.v
theories/Src_Spec.v
theories/Str_Model.v
theories/Str_Proofs.v
theories/Str_Proofs2.v
theories/Str_Props.v
theories/Str_Spec.v
theories/Susp_Model.v
theories/Susp_Proofs.v
theories/Susp_Proofs2.v
theories/Susp_Proofs3.v
theories/Susp_Proofs4.v
theories/Susp_Props.v
theories/Susp_Spec.v
theories/Switch_Model.v
theories/Switch_Proofs.v
theories/Switch_Props.v
theories/Switch_Spec.v
theories/Tab_Model.v
theories/Tab_Proofs.v
theories/Tab_Proofs10.v
theories/Tab_Proofs2.v
theories/Tab_Proofs3.v
theories/Tab_Proofs4.v
theories/Tab_Proofs5.v
theories/Tab_Proofs6.v
theories/Tab_Proofs7.v
theories/Tab_Proofs8.v
theories/Tab_Proofs9.v
theories/Tab_Props.v
theories/Tab_Props2.v
theories/Tab_Props3.v
theories/Tab_Props4.v
theories/Tab_Spec.v
theories/Tab_Spec2.v
theories/Tap_Model.v
theories/Tap_Proofs.v
theories/Tap_Proofs2.v
theories/Tap_Proofs3.v
theories/Tap_Proofs4.v
theories/Tap_Proofs5.v
theories/Tap_Props.v
theories/Tap_Props2.v
theories/Tap_Spec.v
theories/Tap_Spec2.v
theories/Thr_Model.v
theories/Thr_Proofs.v
theories/Thr_Props.v
theories/Thr_Spec.v
theories/Time_Model.v
theories/Time_Proofs.v
theories/Time_Props.v
theories/Time_Spec.v
theories/Timer_Model.v
theories/Timer_Proofs.v
theories/Timer_Props.v
theories/Timer_Spec.v
theories/Totem_Model.v
theories/Totem_Proofs.v
theories/Totem_Proofs2.v
theories/Totem_Proofs3.v
theories/Totem_Proofs4.v
theories/Totem_Props.v
theories/Totem_Props2.v
theories/Totem_Spec.v
theories/Touch_Model.v
theories/Touch_Proofs.v
theories/Touch_Proofs2.v
theories/Touch_Proofs3.v
theories/Touch_Props.v
theories/Touch_Spec.v
theories/Tp_Model.v
theories/Tp_Proofs.v
theories/Tp_Proofs2.v
theories/Tp_Props.v
theories/Tp_Props2.v
theories/Tp_Spec.v
theories/Tpb_Model.v
theories/Tpb_Proofs.v
theories/Tpb_Proofs2.v
theories/Tpb_Proofs3.v
theories/Tpb_Proofs4.v
theories/Tpb_Props.v
theories/Tpb_Props2.v
theories/Tpb_Props3.v
theories/Tpb_Spec.v
theories/Ver_Model.v
theories/Ver_Proofs.v
theories/Ver_Props.v
theories/Ver_Spec.v
