(* Generated from the C sources by tools/lock_skeleton.py: where the functions of the API take
   and give back the lock of their handle. Kept of a function: the calls that grab or release the
   lock, and what follows if they fail; returns and jumps to the label on_error; conditions, as
   a choice between two branches, if a branch has one of these (no loop has one). Left
   out: everything else, in particular what conditions depend on, and debug output. *)
Require Import String.
From Verif Require Import Base Locks.
Open Scope string_scope.

(* libfsapfs_container.c 616-784 *)
Definition f_container_open_file_io_handle : func := Fn
  [Choice [Return] []; Choice [Return] []; Choice [Return] []; Choice [Return] []; Choice [Return] []; Choice [Goto] [Choice [Choice [Goto] []] []]; Choice [Goto] []; Grab true [Goto]; Release true [Goto]; Return]
  [Return].
(* libfsapfs_container.c 789-1015 *)
Definition f_container_close : func := Fn
  [Choice [Return] []; Choice [Return] []; Grab true [Return]; Release true [Return]; Return]
  [].
(* libfsapfs_container.c 155-228 *)
Definition f_container_free : func := Fn
  [Choice [Return] []; Choice [Choice [Call f_container_close] []] []; Return]
  [].
(* libfsapfs_container.c 272-437 *)
Definition f_container_open : func := Fn
  [Choice [Return] []; Choice [Return] []; Choice [Return] []; Choice [Return] []; Choice [Goto] []; Choice [Goto] []; Call f_container_open_file_io_handle; Choice [Goto] []; Grab true [Goto]; Release true [Goto]; Return]
  [Return].
(* libfsapfs_container.c 444-609 *)
Definition f_container_open_wide : func := Fn
  [Choice [Return] []; Choice [Return] []; Choice [Return] []; Choice [Return] []; Choice [Goto] []; Choice [Goto] []; Call f_container_open_file_io_handle; Choice [Goto] []; Grab true [Goto]; Release true [Goto]; Return]
  [Return].
(* libfsapfs_container.c 1885-1972 *)
Definition f_container_get_size : func := Fn
  [Choice [Return] []; Choice [Return] []; Choice [Return] []; Choice [Return] []; Grab false [Return]; Release false [Return]; Return]
  [].
(* libfsapfs_container.c 1978-2047 *)
Definition f_container_get_identifier : func := Fn
  [Choice [Return] []; Grab false [Return]; Release false [Return]; Return]
  [].
(* libfsapfs_container.c 2052-2108 *)
Definition f_container_is_locked : func := Fn
  [Choice [Return] []; Grab false [Return]; Release false [Return]; Return]
  [].
(* libfsapfs_container.c 2113-2189 *)
Definition f_container_get_number_of_volumes : func := Fn
  [Choice [Return] []; Choice [Return] []; Choice [Return] []; Grab false [Return]; Release false [Return]; Return]
  [].
(* libfsapfs_container.c 2195-2392 *)
Definition f_container_get_volume_by_index : func := Fn
  [Choice [Return] []; Choice [Return] []; Choice [Return] []; Choice [Return] []; Choice [Return] []; Grab false [Return]; Choice [Goto] []; Choice [Goto] []; Choice [Goto] []; Choice [Goto] []; Choice [Goto] []; Release false [Return]; Return]
  [Release false []; Return].
(* libfsapfs_extended_attribute.c 282-347 *)
Definition f_extended_attribute_get_identifier : func := Fn
  [Choice [Return] []; Choice [Return] []; Grab false [Return]; Release false [Return]; Return]
  [].
(* libfsapfs_extended_attribute.c 353-420 *)
Definition f_extended_attribute_get_utf8_name_size : func := Fn
  [Choice [Return] []; Grab false [Return]; Release false [Return]; Return]
  [].
(* libfsapfs_extended_attribute.c 426-495 *)
Definition f_extended_attribute_get_utf8_name : func := Fn
  [Choice [Return] []; Grab false [Return]; Release false [Return]; Return]
  [].
(* libfsapfs_extended_attribute.c 501-568 *)
Definition f_extended_attribute_get_utf16_name_size : func := Fn
  [Choice [Return] []; Grab false [Return]; Release false [Return]; Return]
  [].
(* libfsapfs_extended_attribute.c 574-643 *)
Definition f_extended_attribute_get_utf16_name : func := Fn
  [Choice [Return] []; Grab false [Return]; Release false [Return]; Return]
  [].
(* libfsapfs_extended_attribute.c 701-793 *)
Definition f_extended_attribute_read_buffer : func := Fn
  [Choice [Return] []; Grab true [Return]; Release true [Return]; Return]
  [].
(* libfsapfs_extended_attribute.c 798-892 *)
Definition f_extended_attribute_read_buffer_at_offset : func := Fn
  [Choice [Return] []; Grab true [Return]; Release true [Return]; Return]
  [].
(* libfsapfs_extended_attribute.c 897-986 *)
Definition f_extended_attribute_seek_offset : func := Fn
  [Choice [Return] []; Grab true [Return]; Release true [Return]; Return]
  [].
(* libfsapfs_extended_attribute.c 991-1077 *)
Definition f_extended_attribute_get_offset : func := Fn
  [Choice [Return] []; Grab true [Return]; Release true [Return]; Return]
  [].
(* libfsapfs_extended_attribute.c 1082-1158 *)
Definition f_extended_attribute_get_size : func := Fn
  [Choice [Return] []; Choice [Return] []; Choice [Return] []; Grab false [Return]; Release false [Return]; Return]
  [].
(* libfsapfs_extended_attribute.c 1163-1251 *)
Definition f_extended_attribute_get_number_of_extents : func := Fn
  [Choice [Return] []; Grab true [Return]; Release true [Return]; Return]
  [].
(* libfsapfs_extended_attribute.c 1256-1412 *)
Definition f_extended_attribute_get_extent_by_index : func := Fn
  [Choice [Return] []; Choice [Return] []; Choice [Return] []; Choice [Return] []; Choice [Return] []; Grab true [Return]; Release true [Return]; Return]
  [].
(* libfsapfs_file_entry.c 332-399 *)
Definition f_file_entry_get_identifier : func := Fn
  [Choice [Return] []; Grab false [Return]; Release false [Return]; Return]
  [].
(* libfsapfs_file_entry.c 405-472 *)
Definition f_file_entry_get_parent_identifier : func := Fn
  [Choice [Return] []; Grab false [Return]; Release false [Return]; Return]
  [].
(* libfsapfs_file_entry.c 477-639 *)
Definition f_file_entry_get_parent_file_entry : func := Fn
  [Choice [Return] []; Choice [Return] []; Choice [Return] []; Grab true [Return]; Choice [Goto] []; Choice [Choice [Goto] []; Choice [Goto] []; Choice [Goto] []] []; Release true [Return]; Return]
  [Release true []; Return].
(* libfsapfs_file_entry.c 646-713 *)
Definition f_file_entry_get_creation_time : func := Fn
  [Choice [Return] []; Grab false [Return]; Release false [Return]; Return]
  [].
(* libfsapfs_file_entry.c 720-787 *)
Definition f_file_entry_get_modification_time : func := Fn
  [Choice [Return] []; Grab false [Return]; Release false [Return]; Return]
  [].
(* libfsapfs_file_entry.c 794-861 *)
Definition f_file_entry_get_access_time : func := Fn
  [Choice [Return] []; Grab false [Return]; Release false [Return]; Return]
  [].
(* libfsapfs_file_entry.c 868-935 *)
Definition f_file_entry_get_inode_change_time : func := Fn
  [Choice [Return] []; Grab false [Return]; Release false [Return]; Return]
  [].
(* libfsapfs_file_entry.c 942-1014 *)
Definition f_file_entry_get_added_time : func := Fn
  [Choice [Return] []; Grab false [Return]; Release false [Return]; Return]
  [].
(* libfsapfs_file_entry.c 1020-1087 *)
Definition f_file_entry_get_owner_identifier : func := Fn
  [Choice [Return] []; Grab false [Return]; Release false [Return]; Return]
  [].
(* libfsapfs_file_entry.c 1093-1160 *)
Definition f_file_entry_get_group_identifier : func := Fn
  [Choice [Return] []; Grab false [Return]; Release false [Return]; Return]
  [].
(* libfsapfs_file_entry.c 1166-1235 *)
Definition f_file_entry_get_device_identifier : func := Fn
  [Choice [Return] []; Grab false [Return]; Release false [Return]; Return]
  [].
(* libfsapfs_file_entry.c 1241-1312 *)
Definition f_file_entry_get_device_number : func := Fn
  [Choice [Return] []; Grab false [Return]; Release false [Return]; Return]
  [].
(* libfsapfs_file_entry.c 1318-1385 *)
Definition f_file_entry_get_file_mode : func := Fn
  [Choice [Return] []; Grab false [Return]; Release false [Return]; Return]
  [].
(* libfsapfs_file_entry.c 1391-1458 *)
Definition f_file_entry_get_number_of_links : func := Fn
  [Choice [Return] []; Grab false [Return]; Release false [Return]; Return]
  [].
(* libfsapfs_file_entry.c 1465-1552 *)
Definition f_file_entry_get_utf8_name_size : func := Fn
  [Choice [Return] []; Grab false [Return]; Release false [Return]; Return]
  [].
(* libfsapfs_file_entry.c 1559-1649 *)
Definition f_file_entry_get_utf8_name : func := Fn
  [Choice [Return] []; Grab false [Return]; Release false [Return]; Return]
  [].
(* libfsapfs_file_entry.c 1656-1743 *)
Definition f_file_entry_get_utf16_name_size : func := Fn
  [Choice [Return] []; Grab false [Return]; Release false [Return]; Return]
  [].
(* libfsapfs_file_entry.c 1750-1840 *)
Definition f_file_entry_get_utf16_name : func := Fn
  [Choice [Return] []; Grab false [Return]; Release false [Return]; Return]
  [].
(* libfsapfs_file_entry.c 2203-2299 *)
Definition f_file_entry_get_utf8_symbolic_link_target_size : func := Fn
  [Choice [Return] []; Grab true [Return]; Choice [Choice [Goto] []] []; Choice [Choice [Goto] []] []; Release true [Return]; Return]
  [Release true []; Return].
(* libfsapfs_file_entry.c 2306-2404 *)
Definition f_file_entry_get_utf8_symbolic_link_target : func := Fn
  [Choice [Return] []; Grab true [Return]; Choice [Choice [Goto] []] []; Choice [Choice [Goto] []] []; Release true [Return]; Return]
  [Release true []; Return].
(* libfsapfs_file_entry.c 2411-2507 *)
Definition f_file_entry_get_utf16_symbolic_link_target_size : func := Fn
  [Choice [Return] []; Grab true [Return]; Choice [Choice [Goto] []] []; Choice [Choice [Goto] []] []; Release true [Return]; Return]
  [Release true []; Return].
(* libfsapfs_file_entry.c 2514-2612 *)
Definition f_file_entry_get_utf16_symbolic_link_target : func := Fn
  [Choice [Return] []; Grab true [Return]; Choice [Choice [Goto] []] []; Choice [Choice [Goto] []] []; Release true [Return]; Return]
  [Release true []; Return].
(* libfsapfs_file_entry.c 2617-2703 *)
Definition f_file_entry_get_number_of_extended_attributes : func := Fn
  [Choice [Return] []; Grab true [Return]; Release true [Return]; Return]
  [].
(* libfsapfs_file_entry.c 2708-2842 *)
Definition f_file_entry_get_extended_attribute_by_index : func := Fn
  [Choice [Return] []; Choice [Return] []; Choice [Return] []; Grab true [Return]; Release true [Return]; Return]
  [].
(* libfsapfs_file_entry.c 3057-3130 *)
Definition f_file_entry_has_extended_attribute_by_utf8_name : func := Fn
  [Choice [Return] []; Grab true [Return]; Release true [Return]; Return]
  [].
(* libfsapfs_file_entry.c 3135-3208 *)
Definition f_file_entry_has_extended_attribute_by_utf16_name : func := Fn
  [Choice [Return] []; Grab true [Return]; Release true [Return]; Return]
  [].
(* libfsapfs_file_entry.c 3213-3331 *)
Definition f_file_entry_get_extended_attribute_by_utf8_name : func := Fn
  [Choice [Return] []; Choice [Return] []; Choice [Return] []; Grab true [Return]; Release true [Return]; Return]
  [].
(* libfsapfs_file_entry.c 3336-3454 *)
Definition f_file_entry_get_extended_attribute_by_utf16_name : func := Fn
  [Choice [Return] []; Choice [Return] []; Choice [Return] []; Grab true [Return]; Release true [Return]; Return]
  [].
(* libfsapfs_file_entry.c 3552-3638 *)
Definition f_file_entry_get_number_of_sub_file_entries : func := Fn
  [Choice [Return] []; Grab true [Return]; Release true [Return]; Return]
  [].
(* libfsapfs_file_entry.c 3643-3848 *)
Definition f_file_entry_get_sub_file_entry_by_index : func := Fn
  [Choice [Return] []; Choice [Return] []; Choice [Return] []; Grab true [Return]; Choice [Choice [Goto] []] []; Choice [Goto] []; Choice [Goto] []; Choice [Goto] []; Choice [Goto] []; Choice [Goto] []; Release true [Return]; Return]
  [Release true []; Return].
(* libfsapfs_file_entry.c 3853-4016 *)
Definition f_file_entry_get_sub_file_entry_by_utf8_name : func := Fn
  [Choice [Return] []; Choice [Return] []; Choice [Return] []; Grab true [Return]; Choice [Goto] []; Choice [Goto] [Choice [Choice [Goto] []] []]; Release true [Return]; Return]
  [Release true []; Return].
(* libfsapfs_file_entry.c 4021-4184 *)
Definition f_file_entry_get_sub_file_entry_by_utf16_name : func := Fn
  [Choice [Return] []; Choice [Return] []; Choice [Return] []; Grab true [Return]; Choice [Goto] []; Choice [Goto] [Choice [Choice [Goto] []] []]; Release true [Return]; Return]
  [Release true []; Return].
(* libfsapfs_file_entry.c 4520-4612 *)
Definition f_file_entry_read_buffer : func := Fn
  [Choice [Return] []; Grab true [Return]; Release true [Return]; Return]
  [].
(* libfsapfs_file_entry.c 4617-4711 *)
Definition f_file_entry_read_buffer_at_offset : func := Fn
  [Choice [Return] []; Grab true [Return]; Release true [Return]; Return]
  [].
(* libfsapfs_file_entry.c 4716-4806 *)
Definition f_file_entry_seek_offset : func := Fn
  [Choice [Return] []; Grab true [Return]; Release true [Return]; Return]
  [].
(* libfsapfs_file_entry.c 4811-4897 *)
Definition f_file_entry_get_offset : func := Fn
  [Choice [Return] []; Grab true [Return]; Release true [Return]; Return]
  [].
(* libfsapfs_file_entry.c 5109-5193 *)
Definition f_file_entry_get_size : func := Fn
  [Choice [Return] []; Choice [Return] []; Grab true [Return]; Release true [Return]; Return]
  [].
(* libfsapfs_file_entry.c 5198-5284 *)
Definition f_file_entry_get_number_of_extents : func := Fn
  [Choice [Return] []; Grab true [Return]; Release true [Return]; Return]
  [].
(* libfsapfs_file_entry.c 5289-5443 *)
Definition f_file_entry_get_extent_by_index : func := Fn
  [Choice [Return] []; Choice [Return] []; Choice [Return] []; Choice [Return] []; Choice [Return] []; Grab true [Return]; Release true [Return]; Return]
  [].
(* libfsapfs_snapshot.c 361-428 *)
Definition f_snapshot_get_utf8_name_size : func := Fn
  [Choice [Return] []; Grab false [Return]; Release false [Return]; Return]
  [].
(* libfsapfs_snapshot.c 434-503 *)
Definition f_snapshot_get_utf8_name : func := Fn
  [Choice [Return] []; Grab false [Return]; Release false [Return]; Return]
  [].
(* libfsapfs_snapshot.c 509-576 *)
Definition f_snapshot_get_utf16_name_size : func := Fn
  [Choice [Return] []; Grab false [Return]; Release false [Return]; Return]
  [].
(* libfsapfs_snapshot.c 582-651 *)
Definition f_snapshot_get_utf16_name : func := Fn
  [Choice [Return] []; Grab false [Return]; Release false [Return]; Return]
  [].
(* libfsapfs_volume.c 1247-1317 *)
Definition f_volume_unlock : func := Fn
  [Choice [Return] []; Grab true [Return]; Release true [Return]; Return]
  [].
(* libfsapfs_volume.c 1322-1424 *)
Definition f_volume_get_features_flags : func := Fn
  [Choice [Return] []; Choice [Return] []; Choice [Return] []; Choice [Return] []; Choice [Return] []; Grab false [Return]; Release false [Return]; Return]
  [].
(* libfsapfs_volume.c 1429-1506 *)
Definition f_volume_get_size : func := Fn
  [Choice [Return] []; Choice [Return] []; Choice [Return] []; Grab false [Return]; Release false [Return]; Return]
  [].
(* libfsapfs_volume.c 1512-1592 *)
Definition f_volume_get_identifier : func := Fn
  [Choice [Return] []; Choice [Return] []; Grab false [Return]; Release false [Return]; Return]
  [].
(* libfsapfs_volume.c 1598-1665 *)
Definition f_volume_get_utf8_name_size : func := Fn
  [Choice [Return] []; Grab false [Return]; Release false [Return]; Return]
  [].
(* libfsapfs_volume.c 1671-1740 *)
Definition f_volume_get_utf8_name : func := Fn
  [Choice [Return] []; Grab false [Return]; Release false [Return]; Return]
  [].
(* libfsapfs_volume.c 1746-1813 *)
Definition f_volume_get_utf16_name_size : func := Fn
  [Choice [Return] []; Grab false [Return]; Release false [Return]; Return]
  [].
(* libfsapfs_volume.c 1819-1888 *)
Definition f_volume_get_utf16_name : func := Fn
  [Choice [Return] []; Grab false [Return]; Release false [Return]; Return]
  [].
(* libfsapfs_volume.c 1893-1947 *)
Definition f_volume_is_locked : func := Fn
  [Choice [Return] []; Grab false [Return]; Release false [Return]; Return]
  [].
(* libfsapfs_volume.c 1953-2116 *)
Definition f_volume_set_utf8_password : func := Fn
  [Choice [Return] []; Choice [Return] []; Grab true [Return]; Choice [Choice [Goto] []] []; Choice [Goto] []; Choice [Goto] []; Choice [Goto] []; Release true [Return]; Return]
  [Release true []; Return].
(* libfsapfs_volume.c 2122-2288 *)
Definition f_volume_set_utf16_password : func := Fn
  [Choice [Return] []; Grab true [Return]; Choice [Choice [Goto] []] []; Choice [Goto] []; Choice [Goto] []; Choice [Goto] []; Choice [Goto] []; Release true [Return]; Return]
  [Release true []; Return].
(* libfsapfs_volume.c 2294-2446 *)
Definition f_volume_set_utf8_recovery_password : func := Fn
  [Choice [Return] []; Grab true [Return]; Choice [Choice [Goto] []] []; Choice [Goto] []; Choice [Goto] []; Choice [Goto] []; Release true [Return]; Return]
  [Release true []; Return].
(* libfsapfs_volume.c 2452-2618 *)
Definition f_volume_set_utf16_recovery_password : func := Fn
  [Choice [Return] []; Grab true [Return]; Choice [Choice [Goto] []] []; Choice [Goto] []; Choice [Goto] []; Choice [Goto] []; Choice [Goto] []; Release true [Return]; Return]
  [Release true []; Return].
(* libfsapfs_volume.c 2623-2725 *)
Definition f_volume_get_root_directory : func := Fn
  [Choice [Return] []; Choice [Return] []; Grab true [Return]; Release true [Return]; Return]
  [].
(* libfsapfs_volume.c 2730-2795 *)
Definition f_volume_get_next_file_entry_identifier : func := Fn
  [Choice [Return] []; Choice [Return] []; Grab false [Return]; Release false [Return]; Return]
  [].
(* libfsapfs_volume.c 2970-3074 *)
Definition f_volume_get_file_entry_by_identifier : func := Fn
  [Choice [Return] []; Choice [Return] []; Grab true [Return]; Release true [Return]; Return]
  [].
(* libfsapfs_volume.c 3079-3206 *)
Definition f_volume_get_file_entry_by_utf8_path : func := Fn
  [Choice [Return] []; Choice [Return] []; Choice [Return] []; Choice [Return] []; Grab true [Return]; Release true [Return]; Return]
  [].
(* libfsapfs_volume.c 3211-3338 *)
Definition f_volume_get_file_entry_by_utf16_path : func := Fn
  [Choice [Return] []; Choice [Return] []; Choice [Return] []; Choice [Return] []; Grab true [Return]; Release true [Return]; Return]
  [].
(* libfsapfs_volume.c 3343-3410 *)
Definition f_volume_get_number_of_snapshots : func := Fn
  [Choice [Return] []; Grab false [Return]; Release false [Return]; Return]
  [].
(* libfsapfs_volume.c 3416-3569 *)
Definition f_volume_get_snapshot_by_index : func := Fn
  [Choice [Return] []; Choice [Return] []; Choice [Return] []; Grab false [Return]; Choice [Return] []; Choice [Goto] []; Choice [Goto] []; Choice [Goto] []; Release false [Return]; Return]
  [Release false []; Return].

(* every function of the API that takes a lock *)
Definition api : list (string * func) := [
  ("libfsapfs_container_open_file_io_handle", f_container_open_file_io_handle);
  ("libfsapfs_container_close", f_container_close);
  ("libfsapfs_container_free", f_container_free);
  ("libfsapfs_container_open", f_container_open);
  ("libfsapfs_container_open_wide", f_container_open_wide);
  ("libfsapfs_container_get_size", f_container_get_size);
  ("libfsapfs_container_get_identifier", f_container_get_identifier);
  ("libfsapfs_container_is_locked", f_container_is_locked);
  ("libfsapfs_container_get_number_of_volumes", f_container_get_number_of_volumes);
  ("libfsapfs_container_get_volume_by_index", f_container_get_volume_by_index);
  ("libfsapfs_extended_attribute_get_identifier", f_extended_attribute_get_identifier);
  ("libfsapfs_extended_attribute_get_utf8_name_size", f_extended_attribute_get_utf8_name_size);
  ("libfsapfs_extended_attribute_get_utf8_name", f_extended_attribute_get_utf8_name);
  ("libfsapfs_extended_attribute_get_utf16_name_size", f_extended_attribute_get_utf16_name_size);
  ("libfsapfs_extended_attribute_get_utf16_name", f_extended_attribute_get_utf16_name);
  ("libfsapfs_extended_attribute_read_buffer", f_extended_attribute_read_buffer);
  ("libfsapfs_extended_attribute_read_buffer_at_offset", f_extended_attribute_read_buffer_at_offset);
  ("libfsapfs_extended_attribute_seek_offset", f_extended_attribute_seek_offset);
  ("libfsapfs_extended_attribute_get_offset", f_extended_attribute_get_offset);
  ("libfsapfs_extended_attribute_get_size", f_extended_attribute_get_size);
  ("libfsapfs_extended_attribute_get_number_of_extents", f_extended_attribute_get_number_of_extents);
  ("libfsapfs_extended_attribute_get_extent_by_index", f_extended_attribute_get_extent_by_index);
  ("libfsapfs_file_entry_get_identifier", f_file_entry_get_identifier);
  ("libfsapfs_file_entry_get_parent_identifier", f_file_entry_get_parent_identifier);
  ("libfsapfs_file_entry_get_parent_file_entry", f_file_entry_get_parent_file_entry);
  ("libfsapfs_file_entry_get_creation_time", f_file_entry_get_creation_time);
  ("libfsapfs_file_entry_get_modification_time", f_file_entry_get_modification_time);
  ("libfsapfs_file_entry_get_access_time", f_file_entry_get_access_time);
  ("libfsapfs_file_entry_get_inode_change_time", f_file_entry_get_inode_change_time);
  ("libfsapfs_file_entry_get_added_time", f_file_entry_get_added_time);
  ("libfsapfs_file_entry_get_owner_identifier", f_file_entry_get_owner_identifier);
  ("libfsapfs_file_entry_get_group_identifier", f_file_entry_get_group_identifier);
  ("libfsapfs_file_entry_get_device_identifier", f_file_entry_get_device_identifier);
  ("libfsapfs_file_entry_get_device_number", f_file_entry_get_device_number);
  ("libfsapfs_file_entry_get_file_mode", f_file_entry_get_file_mode);
  ("libfsapfs_file_entry_get_number_of_links", f_file_entry_get_number_of_links);
  ("libfsapfs_file_entry_get_utf8_name_size", f_file_entry_get_utf8_name_size);
  ("libfsapfs_file_entry_get_utf8_name", f_file_entry_get_utf8_name);
  ("libfsapfs_file_entry_get_utf16_name_size", f_file_entry_get_utf16_name_size);
  ("libfsapfs_file_entry_get_utf16_name", f_file_entry_get_utf16_name);
  ("libfsapfs_file_entry_get_utf8_symbolic_link_target_size", f_file_entry_get_utf8_symbolic_link_target_size);
  ("libfsapfs_file_entry_get_utf8_symbolic_link_target", f_file_entry_get_utf8_symbolic_link_target);
  ("libfsapfs_file_entry_get_utf16_symbolic_link_target_size", f_file_entry_get_utf16_symbolic_link_target_size);
  ("libfsapfs_file_entry_get_utf16_symbolic_link_target", f_file_entry_get_utf16_symbolic_link_target);
  ("libfsapfs_file_entry_get_number_of_extended_attributes", f_file_entry_get_number_of_extended_attributes);
  ("libfsapfs_file_entry_get_extended_attribute_by_index", f_file_entry_get_extended_attribute_by_index);
  ("libfsapfs_file_entry_has_extended_attribute_by_utf8_name", f_file_entry_has_extended_attribute_by_utf8_name);
  ("libfsapfs_file_entry_has_extended_attribute_by_utf16_name", f_file_entry_has_extended_attribute_by_utf16_name);
  ("libfsapfs_file_entry_get_extended_attribute_by_utf8_name", f_file_entry_get_extended_attribute_by_utf8_name);
  ("libfsapfs_file_entry_get_extended_attribute_by_utf16_name", f_file_entry_get_extended_attribute_by_utf16_name);
  ("libfsapfs_file_entry_get_number_of_sub_file_entries", f_file_entry_get_number_of_sub_file_entries);
  ("libfsapfs_file_entry_get_sub_file_entry_by_index", f_file_entry_get_sub_file_entry_by_index);
  ("libfsapfs_file_entry_get_sub_file_entry_by_utf8_name", f_file_entry_get_sub_file_entry_by_utf8_name);
  ("libfsapfs_file_entry_get_sub_file_entry_by_utf16_name", f_file_entry_get_sub_file_entry_by_utf16_name);
  ("libfsapfs_file_entry_read_buffer", f_file_entry_read_buffer);
  ("libfsapfs_file_entry_read_buffer_at_offset", f_file_entry_read_buffer_at_offset);
  ("libfsapfs_file_entry_seek_offset", f_file_entry_seek_offset);
  ("libfsapfs_file_entry_get_offset", f_file_entry_get_offset);
  ("libfsapfs_file_entry_get_size", f_file_entry_get_size);
  ("libfsapfs_file_entry_get_number_of_extents", f_file_entry_get_number_of_extents);
  ("libfsapfs_file_entry_get_extent_by_index", f_file_entry_get_extent_by_index);
  ("libfsapfs_snapshot_get_utf8_name_size", f_snapshot_get_utf8_name_size);
  ("libfsapfs_snapshot_get_utf8_name", f_snapshot_get_utf8_name);
  ("libfsapfs_snapshot_get_utf16_name_size", f_snapshot_get_utf16_name_size);
  ("libfsapfs_snapshot_get_utf16_name", f_snapshot_get_utf16_name);
  ("libfsapfs_volume_unlock", f_volume_unlock);
  ("libfsapfs_volume_get_features_flags", f_volume_get_features_flags);
  ("libfsapfs_volume_get_size", f_volume_get_size);
  ("libfsapfs_volume_get_identifier", f_volume_get_identifier);
  ("libfsapfs_volume_get_utf8_name_size", f_volume_get_utf8_name_size);
  ("libfsapfs_volume_get_utf8_name", f_volume_get_utf8_name);
  ("libfsapfs_volume_get_utf16_name_size", f_volume_get_utf16_name_size);
  ("libfsapfs_volume_get_utf16_name", f_volume_get_utf16_name);
  ("libfsapfs_volume_is_locked", f_volume_is_locked);
  ("libfsapfs_volume_set_utf8_password", f_volume_set_utf8_password);
  ("libfsapfs_volume_set_utf16_password", f_volume_set_utf16_password);
  ("libfsapfs_volume_set_utf8_recovery_password", f_volume_set_utf8_recovery_password);
  ("libfsapfs_volume_set_utf16_recovery_password", f_volume_set_utf16_recovery_password);
  ("libfsapfs_volume_get_root_directory", f_volume_get_root_directory);
  ("libfsapfs_volume_get_next_file_entry_identifier", f_volume_get_next_file_entry_identifier);
  ("libfsapfs_volume_get_file_entry_by_identifier", f_volume_get_file_entry_by_identifier);
  ("libfsapfs_volume_get_file_entry_by_utf8_path", f_volume_get_file_entry_by_utf8_path);
  ("libfsapfs_volume_get_file_entry_by_utf16_path", f_volume_get_file_entry_by_utf16_path);
  ("libfsapfs_volume_get_number_of_snapshots", f_volume_get_number_of_snapshots);
  ("libfsapfs_volume_get_snapshot_by_index", f_volume_get_snapshot_by_index)].
