(** * The text of files in [/repo/Src]

    Copied by [/verif/tools/embed.py], which changes nothing but writes each double quote twice
    (that is how Coq writes one inside a string); [embed.py --check] compares. *)
From Coq Require Import String.
Local Open Scope string_scope.

(** Src/queue.c *)
Definition text_queue_c : string :=
"/****************************************************************************
 *
 *   Copyright (c) 2022 IMProject Development Team. All rights reserved.
 *   Authors: Juraj Ciberlin <jciberlin1@gmail.com>
 *
 * Redistribution and use in source and binary forms, with or without
 * modification, are permitted provided that the following conditions
 * are met:
 *
 * 1. Redistributions of source code must retain the above copyright
 *    notice, this list of conditions and the following disclaimer.
 * 2. Redistributions in binary form must reproduce the above copyright
 *    notice, this list of conditions and the following disclaimer in
 *    the documentation and/or other materials provided with the
 *    distribution.
 * 3. Neither the name IMProject nor the names of its contributors may be
 *    used to endorse or promote products derived from this software
 *    without specific prior written permission.
 *
 * THIS SOFTWARE IS PROVIDED BY THE COPYRIGHT HOLDERS AND CONTRIBUTORS
 * ""AS IS"" AND ANY EXPRESS OR IMPLIED WARRANTIES, INCLUDING, BUT NOT
 * LIMITED TO, THE IMPLIED WARRANTIES OF MERCHANTABILITY AND FITNESS
 * FOR A PARTICULAR PURPOSE ARE DISCLAIMED. IN NO EVENT SHALL THE
 * COPYRIGHT OWNER OR CONTRIBUTORS BE LIABLE FOR ANY DIRECT, INDIRECT,
 * INCIDENTAL, SPECIAL, EXEMPLARY, OR CONSEQUENTIAL DAMAGES (INCLUDING,
 * BUT NOT LIMITED TO, PROCUREMENT OF SUBSTITUTE GOODS OR SERVICES; LOSS
 * OF USE, DATA, OR PROFITS; OR BUSINESS INTERRUPTION) HOWEVER CAUSED
 * AND ON ANY THEORY OF LIABILITY, WHETHER IN CONTRACT, STRICT
 * LIABILITY, OR TORT (INCLUDING NEGLIGENCE OR OTHERWISE) ARISING IN
 * ANY WAY OUT OF THE USE OF THIS SOFTWARE, EVEN IF ADVISED OF THE
 * POSSIBILITY OF SUCH DAMAGE.
 *
 ****************************************************************************/

#include ""queue.h""

#include <string.h>

bool
Queue_init(Queue_t* queue, uint32_t capacity, uint32_t element_size, uint8_t* buffer) {
    bool status = false;
    if ((element_size != 0U) && (capacity != 0U) && (buffer != NULL_PTR)) {
        queue->capacity = capacity;
        queue->front = 0U;
        queue->size = 0U;
        queue->rear = capacity - 1U;
        queue->element_size = element_size;
        queue->buffer = buffer;
        status = true;
    }
    return status;
}

bool
Queue_full(const Queue_t* queue) {
    return (queue->size == queue->capacity);
}

bool
Queue_empty(const Queue_t* queue) {
    return (queue->size == 0U);
}

bool
Queue_enqueue(Queue_t* queue, const uint8_t* element) {
    bool status = false;
    if ((queue != NULL_PTR) && (element != NULL_PTR)) {
        if (!Queue_full(queue)) {
            uint8_t* buffer = queue->buffer;
            /* -E> compliant MC3R1.R21.18 4 Buffer overflow will not happen, element has same size as one element
             * in buffer, and their size is stored in element_size member. Also, there is a guard that checks that
             * queue is not full. */
            // cppcheck-suppress misra-c2012-17.7; return value is not needed in this case
            memcpy(&buffer[((queue->rear + 1U) % queue->capacity) * queue->element_size], element, queue->element_size);
            queue->rear = (queue->rear + 1U) % queue->capacity;
            queue->size = queue->size + 1U;
            status = true;
        }
    }
    return status;
}

bool
Queue_dequeue(Queue_t* queue, uint8_t* element) {
    bool status = false;
    if ((queue != NULL_PTR) && (element != NULL_PTR)) {
        if (!Queue_empty(queue)) {
            const uint8_t* buffer = (const uint8_t*)queue->buffer;
            /* -E> compliant MC3R1.R21.18 3 Buffer overflow will not happen, element has same size as one element
             * in buffer, and their size is stored in element_size member. */
            // cppcheck-suppress misra-c2012-17.7; return value is not needed in this case
            memcpy(element, &buffer[queue->front * queue->element_size], queue->element_size);
            queue->front = (queue->front + 1U) % queue->capacity;
            queue->size = queue->size - 1U;
            status = true;
        }
    }
    return status;
}

bool
Queue_front(const Queue_t* queue, uint8_t* element) {
    bool status = false;
    if ((queue != NULL_PTR) && (element != NULL_PTR)) {
        if (!Queue_empty(queue)) {
            const uint8_t* buffer = (const uint8_t*)queue->buffer;
            /* -E> compliant MC3R1.R21.18 3 Buffer overflow will not happen, element has same size as one element
             * in buffer, and their size is stored in element_size member. */
            // cppcheck-suppress misra-c2012-17.7; return value is not needed in this case
            memcpy(element, &buffer[queue->front * queue->element_size], queue->element_size);
            status = true;
        }
    }
    return status;
}

bool
Queue_rear(const Queue_t* queue, uint8_t* element) {
    bool status = false;
    if ((queue != NULL_PTR) && (element != NULL_PTR)) {
        if (!Queue_empty(queue)) {
            const uint8_t* buffer = (const uint8_t*)queue->buffer;
            /* -E> compliant MC3R1.R21.18 3 Buffer overflow will not happen, element has same size as one element
             * in buffer, and their size is stored in element_size member. */
            // cppcheck-suppress misra-c2012-17.7; return value is not needed in this case
            memcpy(element, &buffer[queue->rear * queue->element_size], queue->element_size);
            status = true;
        }
    }
    return status;
}
".

(** Src/priority_queue.c *)
Definition text_priority_queue_c : string :=
"/****************************************************************************
 *
 *   Copyright (c) 2022 IMProject Development Team. All rights reserved.
 *   Authors: Juraj Ciberlin <jciberlin1@gmail.com>
 *
 * Redistribution and use in source and binary forms, with or without
 * modification, are permitted provided that the following conditions
 * are met:
 *
 * 1. Redistributions of source code must retain the above copyright
 *    notice, this list of conditions and the following disclaimer.
 * 2. Redistributions in binary form must reproduce the above copyright
 *    notice, this list of conditions and the following disclaimer in
 *    the documentation and/or other materials provided with the
 *    distribution.
 * 3. Neither the name IMProject nor the names of its contributors may be
 *    used to endorse or promote products derived from this software
 *    without specific prior written permission.
 *
 * THIS SOFTWARE IS PROVIDED BY THE COPYRIGHT HOLDERS AND CONTRIBUTORS
 * ""AS IS"" AND ANY EXPRESS OR IMPLIED WARRANTIES, INCLUDING, BUT NOT
 * LIMITED TO, THE IMPLIED WARRANTIES OF MERCHANTABILITY AND FITNESS
 * FOR A PARTICULAR PURPOSE ARE DISCLAIMED. IN NO EVENT SHALL THE
 * COPYRIGHT OWNER OR CONTRIBUTORS BE LIABLE FOR ANY DIRECT, INDIRECT,
 * INCIDENTAL, SPECIAL, EXEMPLARY, OR CONSEQUENTIAL DAMAGES (INCLUDING,
 * BUT NOT LIMITED TO, PROCUREMENT OF SUBSTITUTE GOODS OR SERVICES; LOSS
 * OF USE, DATA, OR PROFITS; OR BUSINESS INTERRUPTION) HOWEVER CAUSED
 * AND ON ANY THEORY OF LIABILITY, WHETHER IN CONTRACT, STRICT
 * LIABILITY, OR TORT (INCLUDING NEGLIGENCE OR OTHERWISE) ARISING IN
 * ANY WAY OUT OF THE USE OF THIS SOFTWARE, EVEN IF ADVISED OF THE
 * POSSIBILITY OF SUCH DAMAGE.
 *
 ****************************************************************************/

#include ""priority_queue.h""

#include <string.h>

static bool
Full(const PriorityQueue_t* queue) {
    return (queue->size == queue->capacity);
}

static uint32_t
GetHighestPriorityIndex(const PriorityQueue_t* queue) {
    uint32_t highest_priority = queue->priority_array[0];
    uint32_t index = 0U;

    for (uint32_t i = 0U; i < queue->size; ++i) {
        if (highest_priority < queue->priority_array[i]) {
            highest_priority = queue->priority_array[i];
            index = i;
        }
    }

    return index;
}

static uint32_t
GetLowestPriorityIndex(const PriorityQueue_t* queue) {
    uint32_t lowest_priority = queue->priority_array[0];
    uint32_t index = 0U;

    for (uint32_t i = 0U; i < queue->size; ++i) {
        if (lowest_priority > queue->priority_array[i]) {
            lowest_priority = queue->priority_array[i];
            index = i;
        }
    }

    return index;
}

bool
PriorityQueue_init(PriorityQueue_t* queue, uint32_t capacity, uint32_t element_size,
                   const PriorityQueueItem_t* items) {
    bool status = false;
    if ((queue != NULL_PTR) && (capacity != 0U) && (element_size != 0U) && (items != NULL_PTR)) {
        queue->capacity = capacity;
        queue->size = 0U;
        queue->element_size = element_size;
        queue->priority_array = items->priority;
        queue->buffer = items->element;
        status = true;
    }
    return status;
}

bool
PriorityQueue_empty(const PriorityQueue_t* queue) {
    return (queue->size == 0U);
}

bool
PriorityQueue_enqueue(PriorityQueue_t* queue, const PriorityQueueItem_t* item) {
    bool status = false;
    if (!Full(queue)) {
        uint8_t* buffer = queue->buffer;
        /* -E> compliant MC3R1.R21.18 3 Buffer overflow will not happen, there is a guard that checks that priority
         * queue is not full. */
        // cppcheck-suppress misra-c2012-17.7; return value is not needed in this case
        memcpy(&buffer[queue->size * queue->element_size], item->element, queue->element_size);
        queue->priority_array[queue->size] = *(item->priority);
        queue->size = queue->size + 1U;
        status = true;
    } else {
        uint32_t lowest_priority_index = GetLowestPriorityIndex(queue);
        if (queue->priority_array[lowest_priority_index] < (*(item->priority))) {
            status = true;
            uint8_t* buffer = queue->buffer;
            queue->size = queue->size - 1U;
            const uint32_t current_size = queue->size;
            for (uint32_t i = lowest_priority_index; i < current_size; ++i) {
                /* -E> compliant MC3R1.R19.1 4 Overlap will not happen because iteration will be performed until current
                 * queue size is reached which is previous size - 1. Therefore, last valid element that will be used in
                 * memcpy function is placed in current size + 1. */
                // cppcheck-suppress misra-c2012-17.7; return value is not needed in this case
                memcpy(&buffer[i * queue->element_size], &buffer[(i * queue->element_size) + queue->element_size],
                       queue->element_size);
                queue->priority_array[i] = queue->priority_array[i + 1U];
            }
            /* -E> compliant MC3R1.R21.18 4 Buffer overflow will not happen, there will be one more place in buffer to
             * insert a new element because of removing element with the lowest priority (performed in the above code,
             * in the same function). */
            // cppcheck-suppress misra-c2012-17.7; return value is not needed in this case
            memcpy(&buffer[queue->size * queue->element_size], item->element, queue->element_size);
            queue->priority_array[queue->size] = *(item->priority);
            queue->size = queue->size + 1U;
        }
    }
    return status;
}

bool
PriorityQueue_dequeue(PriorityQueue_t* queue, uint8_t* element) {
    bool status = false;
    if (!PriorityQueue_empty(queue)) {
        status = true;
        uint32_t highest_priority_index = GetHighestPriorityIndex(queue);
        uint8_t* buffer = queue->buffer;
        /* -E> compliant MC3R1.R21.18 3 Buffer overflow will not happen, element has same size as one element
         * in buffer, and their size is stored in element_size member. */
        // cppcheck-suppress misra-c2012-17.7; return value is not needed in this case
        memcpy(element, &buffer[highest_priority_index * queue->element_size], queue->element_size);
        queue->size = queue->size - 1U;
        const uint32_t current_size = queue->size;
        for (uint32_t i = highest_priority_index; i < current_size; ++i) {
            /* -E> compliant MC3R1.R19.1 4 Overlap will not happen because iteration will be performed until current
             * queue size is reached which is previous size - 1. Therefore, last valid element that will be used in
             * memcpy function is placed in current size + 1. */
            // cppcheck-suppress misra-c2012-17.7; return value is not needed in this case
            memcpy(&buffer[i * queue->element_size], &buffer[(i * queue->element_size) + queue->element_size],
                   queue->element_size);
            queue->priority_array[i] = queue->priority_array[i + 1U];
        }
    }
    return status;
}
".

(** Src/map.c *)
Definition text_map_c : string :=
"/****************************************************************************
 *
 *   Copyright (c) 2023 IMProject Development Team. All rights reserved.
 *   Authors: Juraj Ciberlin <jciberlin1@gmail.com>
 *
 * Redistribution and use in source and binary forms, with or without
 * modification, are permitted provided that the following conditions
 * are met:
 *
 * 1. Redistributions of source code must retain the above copyright
 *    notice, this list of conditions and the following disclaimer.
 * 2. Redistributions in binary form must reproduce the above copyright
 *    notice, this list of conditions and the following disclaimer in
 *    the documentation and/or other materials provided with the
 *    distribution.
 * 3. Neither the name IMProject nor the names of its contributors may be
 *    used to endorse or promote products derived from this software
 *    without specific prior written permission.
 *
 * THIS SOFTWARE IS PROVIDED BY THE COPYRIGHT HOLDERS AND CONTRIBUTORS
 * ""AS IS"" AND ANY EXPRESS OR IMPLIED WARRANTIES, INCLUDING, BUT NOT
 * LIMITED TO, THE IMPLIED WARRANTIES OF MERCHANTABILITY AND FITNESS
 * FOR A PARTICULAR PURPOSE ARE DISCLAIMED. IN NO EVENT SHALL THE
 * COPYRIGHT OWNER OR CONTRIBUTORS BE LIABLE FOR ANY DIRECT, INDIRECT,
 * INCIDENTAL, SPECIAL, EXEMPLARY, OR CONSEQUENTIAL DAMAGES (INCLUDING,
 * BUT NOT LIMITED TO, PROCUREMENT OF SUBSTITUTE GOODS OR SERVICES; LOSS
 * OF USE, DATA, OR PROFITS; OR BUSINESS INTERRUPTION) HOWEVER CAUSED
 * AND ON ANY THEORY OF LIABILITY, WHETHER IN CONTRACT, STRICT
 * LIABILITY, OR TORT (INCLUDING NEGLIGENCE OR OTHERWISE) ARISING IN
 * ANY WAY OUT OF THE USE OF THIS SOFTWARE, EVEN IF ADVISED OF THE
 * POSSIBILITY OF SUCH DAMAGE.
 *
 ****************************************************************************/

#include ""map.h""

#include <string.h>

#define INDEX_NOT_FOUND (-1)

static int32_t
GetIndex(const Map_t* map, const byte_t* key, int32_t size) {
    int32_t index = INDEX_NOT_FOUND;
    for (int32_t i = 0; i < size; ++i) {
        /* -E> compliant MC3R1.R21.18 1 map->key_size is a size of the key in the map and it has appropriate value. */
        if (memcmp(&map->keys[i * map->key_size], key, (size_t)map->key_size) == 0) {
            index = i;
            break;
        }
    }
    return index;
}

bool
Map_init(Map_t* map, byte_t* keys, byte_t* values, int32_t key_size, int32_t value_size,
         int32_t max_map_size) {
    bool status = false;
    if ((key_size != 0) && (value_size != 0) && (max_map_size != 0) && (keys != NULL_PTR) && (values != NULL_PTR)) {
        map->keys = keys;
        map->values = values;
        map->key_size = key_size;
        map->value_size = value_size;
        map->max_map_size = max_map_size;
        map->current_size = 0;
        status = true;
    }
    return status;
}

bool
Map_insert(Map_t* map, const byte_t* key, const byte_t* value) {
    bool status = false;
    if (map != NULL_PTR) {
        int32_t index = GetIndex(map, key, map->current_size);
        if (index == INDEX_NOT_FOUND) {
            if (map->current_size != map->max_map_size) {
                /* -E> compliant MC3R1.R21.18 4 map->key_size is a size of the key in the map and it has appropriate value. */
                /* -E> compliant MC3R1.R19.1 3 Overlap will not happen because there is a check if current map size reached
                 * max map size. */
                // cppcheck-suppress misra-c2012-17.7; return value is not needed in this case
                memcpy(&map->keys[map->current_size * map->key_size], key, (size_t)map->key_size);
                /* -E> compliant MC3R1.R21.18 4 map->value_size is a size of the value in the map and it has appropriate value. */
                /* -E> compliant MC3R1.R19.1 3 Overlap will not happen because there is a check if current map size reached
                 * max map size. */
                // cppcheck-suppress misra-c2012-17.7; return value is not needed in this case
                memcpy(&map->values[map->current_size * map->value_size], value, (size_t)map->value_size);
                ++map->current_size;
                status = true;
            }
        } else {
            /* -E> compliant MC3R1.R21.18 4 map->value_size is a size of the value in the map and it has appropriate value. */
            /* -E> compliant MC3R1.R19.1 3 Overlap will not happen since the current key is the same as the key that is
             * previously inserted in the map. Therefore, new value will be mapped to that key. */
            // cppcheck-suppress misra-c2012-17.7; return value is not needed in this case
            memcpy(&map->values[index * map->value_size], value, (size_t)map->value_size);
            status = true;
        }
    }
    return status;
}

bool
Map_getValue(const Map_t* map, const byte_t* key, byte_t* value) {
    bool status = false;
    if (map != NULL_PTR) {
        int32_t index = GetIndex(map, key, map->current_size);
        if (index != INDEX_NOT_FOUND) {
            /* -E> compliant MC3R1.R21.18 4 map->value_size is a size of the value in the map and it has appropriate value. */
            /* -E> compliant MC3R1.R19.1 3 Overlap will not happen because the map->value_size is the size of the value
             * and every element in map->values has that size */
            // cppcheck-suppress misra-c2012-17.7; return value is not needed in this case
            memcpy(value, &map->values[index * map->value_size], (size_t)map->value_size);
            status = true;
        }
    }
    return status;
}
".

(** Src/scheduler.c *)
Definition text_scheduler_c : string :=
"/****************************************************************************
 *
 *   Copyright (c) 2023 IMProject Development Team. All rights reserved.
 *   Authors: Juraj Ciberlin <jciberlin1@gmail.com>
 *
 * Redistribution and use in source and binary forms, with or without
 * modification, are permitted provided that the following conditions
 * are met:
 *
 * 1. Redistributions of source code must retain the above copyright
 *    notice, this list of conditions and the following disclaimer.
 * 2. Redistributions in binary form must reproduce the above copyright
 *    notice, this list of conditions and the following disclaimer in
 *    the documentation and/or other materials provided with the
 *    distribution.
 * 3. Neither the name IMProject nor the names of its contributors may be
 *    used to endorse or promote products derived from this software
 *    without specific prior written permission.
 *
 * THIS SOFTWARE IS PROVIDED BY THE COPYRIGHT HOLDERS AND CONTRIBUTORS
 * ""AS IS"" AND ANY EXPRESS OR IMPLIED WARRANTIES, INCLUDING, BUT NOT
 * LIMITED TO, THE IMPLIED WARRANTIES OF MERCHANTABILITY AND FITNESS
 * FOR A PARTICULAR PURPOSE ARE DISCLAIMED. IN NO EVENT SHALL THE
 * COPYRIGHT OWNER OR CONTRIBUTORS BE LIABLE FOR ANY DIRECT, INDIRECT,
 * INCIDENTAL, SPECIAL, EXEMPLARY, OR CONSEQUENTIAL DAMAGES (INCLUDING,
 * BUT NOT LIMITED TO, PROCUREMENT OF SUBSTITUTE GOODS OR SERVICES; LOSS
 * OF USE, DATA, OR PROFITS; OR BUSINESS INTERRUPTION) HOWEVER CAUSED
 * AND ON ANY THEORY OF LIABILITY, WHETHER IN CONTRACT, STRICT
 * LIABILITY, OR TORT (INCLUDING NEGLIGENCE OR OTHERWISE) ARISING IN
 * ANY WAY OUT OF THE USE OF THIS SOFTWARE, EVEN IF ADVISED OF THE
 * POSSIBILITY OF SUCH DAMAGE.
 *
 ****************************************************************************/

#include ""scheduler.h""

void
Scheduler_init(SchedulerTask_t* tasks, uint32_t num_of_tasks) {
    for (uint32_t i = 0U; i < num_of_tasks; ++i) {
        tasks[i].function = NULL_PTR;
        tasks[i].active = false;
    }
}

bool
Scheduler_addTask(SchedulerTask_t* tasks, uint32_t max_num_tasks, const SchedulerTask_t* new_task) {
    bool status = false;
    for (uint32_t i = 0U; i < max_num_tasks; ++i) {
        if (tasks[i].function == NULL_PTR) {
            tasks[i].function = new_task->function;
            tasks[i].active = new_task->active;
            status = true;
            break;
        }
    }
    return status;
}

void
Scheduler_run(const SchedulerTask_t* task, uint32_t num_of_tasks) {
    for (uint32_t i = 0U; i < num_of_tasks; ++i) {
        if ((task[i].function != NULL_PTR) && (task[i].active)) {
            task[i].function();
        }
    }
}
".

(** the files by name *)
Definition text_containers : list (string * string) :=
  (("queue.c", text_queue_c)
   :: ("priority_queue.c", text_priority_queue_c)
   :: ("map.c", text_map_c)
   :: ("scheduler.c", text_scheduler_c)
   :: nil)%list.
