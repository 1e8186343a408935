# notes per property
